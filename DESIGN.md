# Formal model of fail2ban in Rocq (Coq 8.16.1)

The plan was written before the proofs and is kept current. It says how the
model is built, what it rests on, which parts of the code are modelled and
which are not, how each property is proved, and what was found.

## 1. Method

The model is a set of small total Gallina functions, one per function of the
Python code, mirrored branch by branch (`X_Model.v`). Every definition cites
the file and lines of /repo it models; simplifications are named in the comment.
Exceptions are values. Dictionaries are insertion-ordered association lists
(Python >= 3.7). Times and counts are `Z` (rationals `Q` where the code computes
with fractions). Text is a `list` of characters, or `string` for opaque names.
External effects (shell commands, Python actions, the clock, DNS, SQLite,
regular expressions, threads) are explicit inputs: an oracle argument, or an
event in the list of operations. None of them is an axiom, so each theorem
holds for all their behaviours.

For each component X:

* `X_Model.v` - the definitions, no proofs;
* `X_Spec.v` - the small independent specification used in the statements;
* `X_Proofs*.v` - lemmas;
* `X_Props.v` - the property theorems `Cnn_...`, examples that meet their
  hypotheses, and `Print Assumptions` for each theorem.

Shared libraries: `Base.v` (decidable equality, dictionaries, lists), `Text.v`
(texts, split, join, decimal numbers), `Regex.v` (the small regular expressions
the code itself uses, with a matcher).

A statement that is false of the faithful model is kept: a theorem with the
suffix `_refuted` gives a concrete case (a finding, section 5), and the positive
theorem names the condition that is needed.

Every model was tested against wrong programs: `seeded/LOG.jsonl` has one line
per edit of a definition, with the theorems that failed. An edit that survived
led to a tighter theorem (field `tightened`) or is a neutral edit.

## 2. Trusted base

* Coq's kernel, version 8.16.1, including its virtual machine (`vm_compute` is
  used for the concrete cases).
* **Print Assumptions** prints "Closed under the global context" for every
  theorem of MANIFEST.json (the lines stand at the end of each `*_Props.v`). No
  axiom of the standard library is used by any theorem, none was added.
* Libraries loaded: Coq's standard library only (Lists, Strings, ZArith, NArith,
  QArith, Lia, Lqa, Permutation, Sorted, Wf). Files of the standard library that are
  required here load `Coq.ssr.ssrunder`, whose sealed module has opaque fields that
  coqchk lists as axioms of the library, `Coq.ssr.ssrunder.Under_rel`: `Under_rel`, `Under_rel_from_rel`,
  `Under_relE`, `Over_rel`, `over_rel`, `over_rel_done`, `under_rel_done`. No
  theorem depends on them.
* The correspondence of model and code. It was made by reading; the citations
  are there to check it. Nothing of /repo was run.
* The meaning given to Python and its library: `dict` order, `list.sort`
  stability, `str` methods, `datetime` and `calendar` arithmetic, `_strptime`,
  `asynchat`'s buffer, `threading.Thread` states, `configparser`'s reading of one
  file, and SQLite's execution of a statement and a transaction.

## 3. Modelled and not modelled

| code in /repo/fail2ban | modelled in | not modelled |
|---|---|---|
| server/ticket.py | `Ticket_Model` | data keys other than matches and failures |
| server/failmanager.py | `FailManager_Model` (whole class) | logging, garbage collection |
| server/banmanager.py | `BanManager_Model` | WHOIS/ASN helpers (122-259) |
| server/actions.py | `Actions_Model`, two-phase ban for interleavings | statistics of `status` (ActionInfo: `Info_Model`) |
| server/jail.py | queue in `Actions_Model`, ban-time settings in `Observer_Model`, restore in `Database_Model`, start/stop/idle in `Server_Model` | evformula as Python source (its value is an oracle), backend choice by import |
| server/jail.py as a whole | `Jail_Model`: filter, failure manager, observer and actions around the queue; `Persist_Model`: actions, observer and database over restarts | changes of the settings between restarts |
| server/observer.py | `Observer_Model` (what events do), `Wake_Model` (the thread, waking, pausing, stopping, timers) | thread start-up, the time factor in tests |
| server/database.py | `Database_Model`, `DbOpen_Model` (creation, upgrade, repair) | JSON codec, indices, the SQL engine itself (a script is one transaction, a crash within a commit is a damaged file), integrity errors while running |
| server/utils.py | `Utils_Model` (Cache, wait_for), `buildShellCmd` in `Tags_Model`, `executeCmd` in `Exec_Model` | loading of Python modules |
| server/ipdns.py | `IPAddr_Model`, `Dns_Model` (DNSUtils, getfqdn) | getaddrinfo, gethostbyaddr, getifaddrs and the probing for IPv6 themselves (inputs), how long a lookup takes, threads racing in IPv6IsAllowed |
| server/mytime.py | `MyTime_Model` | clock overrides of the tests |
| server/action.py | `Tags_Model` (tags, escaping, shell variables), `CmdAct_Model` (life cycle), `Exec_Model` (execution under the lock), `Info_Model` (CallingMap, ActionInfo) | iteration and printing of CallingMap, callables set by actions |
| helpers.py | `substituteRecursiveTags` in `Tags_Model`; options, words and action lists in `Options_Model` | logging set-up, exception formatting, encodings |
| server/filter.py | `LogFile_Model`, `LogSeek_Model`, `Ignore_Model`, `Lines_Model`, `Session_Model`, `Filter_Model`, list handling in `Server_Model` | journal filters, pyinotify (checkAllRegex: `Tool_Model`) |
| server/failregex.py | tags, flags, named groups and failure IDs in `FailRegex_Model`, buffer and skipped lines in `Lines_Model` | compilation of expressions by `re` |
| server/filterpoll.py | `Poll_Model` | the thread's sleeping |
| server/filterpyinotify.py | `Inotify_Model` (with a model of the file system and of inotify) | exceptions, overflow of the event queue, the waiting in `run` |
| server/filtersystemd.py | `Journal_Model` (matches, start, main loop, position, operation mode, line) | arguments for opening the journal, decoding of field values, performSvc, removal of the journal reader |
| server/datedetector.py | `DateDetector_Model` | text of the default patterns |
| server/datetemplate.py, strptime.py | `Strptime_Model` (fields to time, zones, TAI64N), `Template_Model` (patterns, their expressions and what these find) | patterns with other regular expressions than fields, characters and points; `%Z`, `%ExZ`, `%c` and other composed fields; DateEpoch patterns |
| server/server.py, transmitter.py, jails.py, jailthread.py | `Server_Model`; start, quit, signals, PID file in `Life_Model`; log targets, level and flushing in `Logs_Model` | daemon start, log formats |
| server/asyncserver.py, compat/asynchat.py, client/csocket.py | `Proto_Model`; start, stop and the error counts of the loop in `Life_Model` | accept, pickle |
| client/configparserinc.py, configreader.py | `Config_Model` (files), `Interp_Model` (values with references, with the interpolation of Python's `configparser`) | the reading of one file by `configparser`, encodings |
| client/configreader.py: getOptions, DefinitionInitConfigReader; filterreader.py, actionreader.py, jailreader.py, jailsreader.py | `Stream_Model` | `get` of the parser, interpolation of tags, glob, shlex and json (oracles); log messages, checks of file names |
| client/fail2banclient.py, fail2bancmdline.py (readConfig), configurator.py, fail2banreader.py | `Setup_Model` | forking and waiting for the server, interactive mode, output |
| client/fail2banregex.py | `Tool_Model` (testing of lines, numbers, printed lines; the filter with checkAllRegex) | reading of the filter, `--out`, debuggex, statistics of prefregex and date templates, layout |
| client/fail2bancmdline.py (initCmdLine), with Python's `getopt` | `Cmdline_Model` | printed texts, logging of the client itself |
| client/beautifier.py | `Show_Model` (lists, banned addresses, states) | the table of statistics, answers of one value, messages for errors |

Simplifications are listed at the head of every model file and in the comments of
the definitions they concern. The ones that matter most:

* A method that holds a lock is one step. Interleavings are lists of such steps;
  the known place where the code releases the lock between two parts of one
  operation (ban list and ban actions) is split in two steps.
* Floating-point arithmetic is exact; times are whole seconds.
* An ID is its canonical text, except in `IPAddr_Model`.
* Characters are the first 256 code points.
* Regular expressions of a configuration are functions from a text to what they
  find.

## 4. Properties

Number of positive theorems and of refutations for each property. Every one is
listed by name in MANIFEST.json.

| property | title | file | theorems | refuted | status |
|---|---|---|---|---|---|
| C01 | A ban needs at least maxretry reported failures | `FailManager_Props.v` | 2 | 0 | proved |
| C02 | Failures inside one findtime window are counted exactly | `FailManager_Props.v` | 3 | 2 | proved |
| C03 | Cleanup forgets exactly the outdated IDs | `FailManager_Props.v` | 1 | 0 | proved |
| C04 | Failures of one ID never influence another ID | `FailManager_Props.v` | 1 | 1 | proved |
| C05 | Stored matched lines are bounded and are the newest ones | `FailManager_Props.v` | 1 | 1 | proved |
| C06 | At most one active ban per ID, and the ban list is exactly what was banned and not unbanned | `BanManager_Props.v` | 3 | 0 | proved |
| C07 | No ban is lifted before its time, permanent bans never by expiry | `BanManager_Props.v` | 2 | 0 | proved |
| C08 | Expired bans are lifted by the next expiry check | `BanManager_Props.v` | 2 | 1 | proved |
| C09 | Banning again only ever extends a ban | `BanManager_Props.v` | 2 | 1 | proved |
| C10 | Ban listing is complete and sorted by end of ban | `BanManager_Props.v` | 2 | 0 | proved |
| C11 | Every action sees every ban once, failing actions do not affect others | `Actions_Props.v` | 3 | 0 | proved |
| C12 | Ban and unban of each ID alternate for every action | `Actions_Props.v` | 1 | 3 | proved |
| C13 | Stopping or flushing a jail unbans everything exactly once per action | `Actions_Props.v` | 2 | 1 | proved |
| C14 | Expiry checks are not starved by an endless stream of new bans | `Actions_Props.v` | 2 | 1 | proved |
| C15 | Actions registry under reload | `Actions_Props.v` | 2 | 2 | proved |
| C16 | Unban command semantics | `Actions_Props.v` | 2 | 0 | proved |
| C17 | The ban queue is first-in first-out and loses nothing | `Actions_Props.v` | 2 | 0 | proved |
| C18 | Ban-time increment formula | `Observer_Props.v` | 9 | 1 | proved |
| C19 | Observer work is processed in order, one failing event never blocks the next | `Observer_Props.v` | 4 | 1 | proved |
| C20 | Known offenders need fewer failures, never more, and never ban themselves with a single counted failure below threshold | `Observer_Props.v` | 3 | 0 | proved |
| C21 | A restart restores exactly the unexpired bans of the jail | `Database_Props.v` | 4 | 1 | proved |
| C22 | Database purge never removes a live record | `Database_Props.v` | 4 | 0 | proved |
| C23 | Ban history round-trip | `Database_Props.v` | 5 | 0 | proved |
| C24 | Log position round-trip across restarts | `Database_Props.v` | 3 | 1 | proved |
| C25 | Every complete log line is delivered exactly once, in order, whatever the write chunking | `LogFile_Props.v` | 7 | 3 | proved |
| C26 | Log rotation and restart | `LogFile_Props.v` | 4 | 4 | proved |
| C27 | seekToTime never skips a line newer than the limit | `LogSeek_Props.v` | 6 | 2 | proved |
| C28 | Ignored IPs never reach the failure manager | `Filter_Props.v`, `Ignore_Props.v` | 7 | 6 | proved |
| C29 | Failures older than findtime are not counted | `Filter_Props.v` | 3 | 2 | proved |
| C30 | Network membership is the mathematical one | `IPAddr_Props.v` | 6 | 2 | proved |
| C31 | Textual IPv4/CIDR round-trip and canonical network | `IPAddr_Props.v` | 6 | 6 | proved |
| C32 | Reverse-lookup name | `IPAddr_Props.v` | 3 | 1 | proved |
| C33 | IP set membership | `IPAddr_Props.v` | 3 | 1 | proved |
| C34 | Bounded cache: never stale, never oversize | `Utils_Props.v` | 6 | 3 | proved |
| C35 | Substituted values cannot inject shell metacharacters | `Tags_Props.v` | 3 | 5 | proved |
| C36 | Shell escaping is faithful | `Tags_Props.v` | 4 | 1 | proved |
| C37 | Tag interpolation terminates, resolving every known tag | `Tags_Props.v` | 7 | 1 | proved |
| C38 | Client/server framing is exact for any chunking | `Proto_Props.v` | 8 | 3 | proved |
| C39 | Time abbreviations | `MyTime_Props.v` | 6 | 3 | proved |
| C40 | Commands never kill the server and leave it in a consistent logging state | `Server_Props.v` | 5 | 1 | proved |
| C41 | Jail registry | `Server_Props.v` | 9 | 1 | proved |
| C42 | Configuration reload is a diff | `Server_Props.v` | 4 | 6 | proved |
| C43 | Command action lifecycle | `CmdAct_Props.v` | 11 | 4 | proved |
| C44 | Time zone arithmetic | `Strptime_Props.v` | 6 | 3 | proved |
| C45 | Dates without year/day are resolved to the recent past | `Strptime_Props.v` | 9 | 6 | proved |
| C46 | Date detector keeps all its templates | `DateDetector_Props.v` | 9 | 1 | proved |
| C47 | Polling notices every change of modification time, size or inode | `Poll_Props.v` | 5 | 4 | proved |
| C48 | Configuration inclusion terminates with documented precedence | `Config_Props.v` | 10 | 3 | proved |
| C49 | wait_for contract | `Utils_Props.v` | 4 | 0 | proved |
| C50 | Multi-line failures are merged by ID | `Session_Props.v` | 5 | 4 | proved |
| C51 | The jail's failure total counts recorded reports | `FailManager_Props.v` | 1 | 0 | proved |
| C52 | A ban pass queues exactly the IDs that reached the limit | `FailManager_Props.v` | 3 | 0 | proved |
| C53 | A ban is repeated exactly where the firewall was rebuilt | `Actions_Props.v` | 2 | 1 | proved |
| C54 | Prolonging reaches exactly the actions that can prolong | `Actions_Props.v` | 1 | 0 | proved |
| C55 | Merged ban information of an ID is the sum of its stored bans | `Database_Props.v` | 3 | 2 | proved |
| C56 | An address in the log is never looked up by DNS | `IPAddr_Props.v` | 4 | 1 | proved |
| C57 | A multi-line match takes exactly the lines it touches | `Lines_Props.v` | 5 | 3 | proved |
| C58 | A ban needs as many found failures as maxretry | `Filter_Props.v` | 3 | 0 | proved |
| C59 | An ignored line yields no failure, otherwise the first matching expression decides | `Filter_Props.v` | 7 | 3 | proved |
| C60 | What a filter keeps is bounded, and it gives up only after many errors | `Filter_Props.v` | 1 | 1 | proved |
| C61 | Banning and unbanning by command has exactly the effect asked for | `Server_Props.v` | 5 | 0 | proved |
| C62 | A setting changes what it names and nothing else | `Settings_Props.v` | 10 | 0 | proved |
| C63 | Which template dates a line | `DateDetector_Props.v` | 4 | 3 | proved |
| C64 | A date pattern is read as itself | `DateDetector_Props.v` | 3 | 1 | proved |
| C65 | A ban at the firewall has its cause | `Jail_Props.v` | 4 | 0 | proved |
| C66 | A waiting ban is carried out | `Jail_Props.v` | 2 | 0 | proved |
| C67 | Bans survive restarts and crashes | `Persist_Props.v` | 3 | 4 | proved |
| C68 | Options in brackets are read as written | `Options_Props.v` | 4 | 2 | proved |
| C69 | A list of words is split at blanks and commas only | `Options_Props.v` | 2 | 1 | proved |
| C70 | A list of actions gives exactly these actions | `Options_Props.v` | 1 | 1 | proved |
| C71 | The commands for a jail say what its configuration says | `Stream_Props.v` | 11 | 1 | proved |
| C72 | Precedence of a filter's options | `Stream_Props.v` | 1 | 1 | proved |
| C73 | Jails do not disturb each other | `Stream_Props.v` | 5 | 1 | proved |
| C74 | Options are read by their kind | `Stream_Props.v` | 2 | 1 | proved |
| C75 | The actions of a jail are those of its list | `Stream_Props.v` | 2 | 1 | proved |
| C76 | A log followed with inotify loses no line | `Inotify_Props.v` | 2 | 4 | proved |
| C77 | A log followed with inotify is caught up with | `Inotify_Props.v` | 3 | 1 | proved |
| C78 | What is missing is looked for at growing intervals | `Inotify_Props.v` | 4 | 1 | proved |
| C79 | Only the logs of the jail are watched and read | `Inotify_Props.v` | 4 | 1 | proved |
| C80 | Tags in an expression stand for what they are documented to stand for | `FailRegex_Props.v` | 2 | 1 | proved |
| C81 | The value of a name after a match | `FailRegex_Props.v` | 0 | 2 | proved |
| C82 | Only expressions that can identify a failure are accepted, and the prefix's groups are completed by the failregex's | `FailRegex_Props.v` | 4 | 2 | proved |
| C83 | Flags at the beginning of a group hold for that group only | `FailRegex_Props.v` | 2 | 1 | proved |
| C84 | The outcome of a command is the outcome of that command | `Exec_Props.v` | 4 | 2 | proved |
| C85 | A command that takes too long is stopped and does not stop the others | `Exec_Props.v` | 6 | 2 | proved |
| C86 | The journal shows what the journal matches choose | `Journal_Props.v` | 4 | 2 | proved |
| C87 | The journal is followed without loss and without repetition | `Journal_Props.v` | 6 | 3 | proved |
| C88 | A restart continues in the journal where the stop was | `Journal_Props.v` | 5 | 3 | proved |
| C89 | Old entries of the journal do not count as new ones | `Journal_Props.v` | 4 | 1 | proved |
| C90 | An entry of the journal is one line, ended by its message | `Journal_Props.v` | 4 | 0 | proved |
| C91 | What the configuration says is what the started server has | `Setup_Props.v` | 4 | 2 | proved |
| C92 | A reload makes the jails what the configuration says | `Setup_Props.v` | 3 | 1 | proved |
| C93 | What fail2ban-client does for start, restart, reload and other commands | `Setup_Props.v` | 5 | 0 | proved |
| C94 | Names are resolved to what the resolver said, recently, and not asked again and again | `Dns_Props.v` | 4 | 1 | proved |
| C95 | The own names and addresses are those of the host and its interfaces | `Dns_Props.v` | 2 | 2 | proved |
| C96 | allowipv6 says if IPv6 addresses are looked up | `Dns_Props.v` | 4 | 1 | proved |
| C97 | In a network that does not change all answers are exact | `Dns_Props.v` | 2 | 0 | proved |
| C98 | An old database is upgraded without losing bans, even if the upgrade is interrupted | `DbOpen_Props.v` | 4 | 1 | proved |
| C99 | Opening never destroys the only copy of a database | `DbOpen_Props.v` | 7 | 2 | proved |
| C100 | Each action gets the data of the ban, whatever other actions did with them | `Info_Props.v` | 5 | 2 | proved |
| C101 | Commands without a ban get their own time and family | `Info_Props.v` | 1 | 1 | proved |
| C102 | A value is replaced by what its references mean, entirely or not at all | `Interp_Props.v` | 6 | 1 | proved |
| C103 | References to other sections, to the defaults and to what was known before | `Interp_Props.v` | 2 | 3 | proved |
| C104 | Options asked for by section and name | `Interp_Props.v` | 2 | 2 | proved |
| C105 | Whoever adds an event wakes the observer | `Wake_Props.v` | 7 | 1 | proved |
| C106 | Named timers and the repeated purging of the database | `Wake_Props.v` | 6 | 1 | proved |
| C107 | A stop stops everything in order, and the process ends | `Life_Props.v` | 3 | 3 | proved |
| C108 | The file of the socket and the PID file | `Life_Props.v` | 4 | 3 | proved |
| C109 | Errors do not end the serving of clients | `Life_Props.v` | 4 | 1 | proved |
| C110 | A date is read as it was written | `Template_Props.v` | 4 | 1 | proved |
| C111 | What is found as a date is one, and none is missed | `Template_Props.v` | 5 | 2 | proved |
| C112 | A date pattern means what its text says | `Template_Props.v` | 2 | 4 | proved |
| C113 | The numbers fail2ban-regex gives add up | `Tool_Props.v` | 2 | 2 | proved |
| C114 | The lines fail2ban-regex prints are all of their kind | `Tool_Props.v` | 2 | 1 | proved |
| C115 | What fail2ban-regex says of a line is what the server does with it | `Tool_Props.v` | 1 | 3 | proved |
| C116 | Messages of the server go to the target it tells of | `Logs_Props.v` | 6 | 2 | proved |
| C117 | Rotation loses no message of the server | `Logs_Props.v` | 4 | 2 | proved |
| C118 | The log level told of is in force | `Logs_Props.v` | 4 | 0 | proved |
| C119 | Which words of the command line are options and which are the command | `Cmdline_Props.v` | 4 | 0 | proved |
| C120 | What the options of the command line mean | `Cmdline_Props.v` | 5 | 0 | proved |
| C121 | Testing or dumping the configuration runs no command by accident | `Cmdline_Props.v` | 5 | 0 | proved |
| C122 | What fail2ban-client prints is what the server answered | `Show_Props.v` | 10 | 1 | proved |

How they are proved:

* C01-C05, C51, C52: ghost history of reports; invariant by induction over the
  list of operations; exact counting in a window.
* C06-C10: refinement to a finite map; invariant on the cached next unban time;
  insertion-sort facts.
* C11-C17, C53, C54: state machine with an oracle for the outcome of each
  action's method; invariants of the trace of calls.
* C18-C20: arithmetic in `Q`; the queue by refinement to a FIFO.
* C21-C24, C55: tables as lists of rows, statements as list functions;
  refinement and frame lemmas.
* C25-C27, C57-C60, C28, C29, C50: invariants over schedules of writes and reads;
  functional characterisation of the treatment of a line; refinement to the
  failure manager's history.
* C30-C33, C56: bit-level lemmas on integers; text round trips by induction.
* C34, C49: history invariants.
* C35-C37: induction on texts, fuel bounded by explicit counters. A small shell
  semantics in `Tags_Spec.v` gives the meaning of a script.
* C38: independence of chunking by induction; unambiguity of framing.
* C39: arithmetic in `Q`, a grammar of units.
* C40-C42, C61, C62: state machine with failing handlers; invariant of the
  registry over all streams of commands.
* C43: invariants over lists of operations of an action, laws of its trace.
* C44, C45: calendar arithmetic against an independent day count.
* C46, C63, C64: permutation and order invariants over all lines; functional
  characterisation of the search.
* C47: refinement of the filter's statistics to each log's history.
* C48: lexicographic termination; the order of files as an inductive relation; a
  value is the last one said.
* C68-C70: a backtracking matcher (`Backtrack.v`) for the expressions of helpers.py; each expression is
  proved equal to a deterministic reader, and that to a grammar.
* C71-C75: the effect of a list of commands is given by projections (what the server has been told for a
  setting, a list, an action).  The stream is proved to be a fixed sequence of blocks; each projection is
  computed on each block.  Reading is a lookup law for getOptions and for the sections [Init] and
  [Definition], composed for a jail.  Lists of jails by induction.
* C76, C77, C79: an invariant of the filter, the watches, the queue of events and what is left to do says for every log that it is read,
  or that an event, a pending path or a step to come will lead to it; it is kept by every file operation and every step of the thread. A
  measure of what is left to do shows that the thread comes to rest.
* C78: induction over the operations; for the refuted case over every list of checks that come often enough.
* C80: a grammar of expressions with tags; induction over it, with the substitution as a function of
  the rest of the text.  C81: a fold over the sorted parts, in closed form.  C83: no group with flags
  begins inside another, so the scan splits at any of them.
* C67: an invariant over histories that relates ban list, queue, the observer's waiting events and the
  list of database calls made so far (`last_ban` of that list is what C21 restores); every step keeps it,
  and it gives the restored tickets.
* C65, C66: the steps of a jail refined to calls of the failure manager and to a
  history of the actions; a potential (calls made and tickets waiting) for the
  bound, the position in the queue for progress.
* C84, C85: a command is any state machine that obeys the laws of processes (`process` in `Exec_Spec.v`): what it does in a unit of time given the
  room in its pipes, its status, what signals do.  The polls are at triangular times, which gives the bounds.  Small programs
  show that the laws can be met.
* C86-C90: the journal is a list of entries with growing keys and times, a location in it and a matcher as libsystemd has them (`Journal_Model.v`); the thread is cut at every place where it waits, reads or looks whether to stop, and entries, rotation,
  clock, stop, idle and changes of the matches come between these steps.  C86 by an invariant between the listed matches and the matcher; C87 by invariants over
  what was read and what is unread, with a measure for the progress; C88 by an invariant over the three places where a position may be (read, pending,
  stored); C89 by an invariant over the unread part of the backlog.
* C91-C93: the client's commands are functions on a world with a server or without (`Setup_Model.v`); the configuration is given by the readers of `Stream_Model`, the server is that of `Server_Model`, and the commands are
  sent in the form the protocol has.  C91 by following the stream command by command: every command of the configuration does to its jail what the specification says, and nothing to the others; then the streams of the jails
  are put together.  C92 by applying C42 to this stream, C93 by cases.
* C94-C97: the system is a function of the time (`Dns_Model.v`); one invariant, for any notion of "justified answer" that is closed under the steps, says that
  every cached value is justified by a moment less than 300 s ago (`Dns_Proofs2.v`).  It is instantiated for a changing world, for each setting of IPv6, and for a world
  that does not change (`Dns_Proofs3.v`).  C94_once by an invariant that relates the log of the questions to the cache (`Dns_Proofs4.v`).
* C98-C99: every opening records the states of the disk between commits; an invariant of databases on their way from an old version shows that each of these states reopens to the same bans; a second invariant follows the backup.
* C100-C101: the information has references to the shared table; an invariant says, for the keys the running action did not touch, that each remembered value is the value of the ban at some moment of reading.
* C102-C104: the meaning of a text is a relation over its pieces, independent of the loop; the loop is proved to compute it, level by level, with an invariant that says which cross references the map knows already. `known` is combined with the theorems of C48 about the files.
* C105, C106: a transition system whose steps are the statements other threads can see, in any order; an invariant says who is going to wake the thread; progress by running the thread alone; ranks for its end. Timers: invariants over histories (identities of timers, number of purges to come).
* C107-C109: any number of server processes as a transition system over two files; per-process invariants by place, a stable property for what is shut, ranks for the end; the counter of the loop is characterised by the worst stretch of outcomes.
* C110-C112: regular expressions as ordered lists of match lengths (the order of backtracking); each field is compared with its specification as a finite language; what is found is the first way, and in clear patterns there is one way only; the text of a pattern is read back by induction over its items.
* C113-C115: the numbers by induction over the lines, the printed lists as beginnings of the lists of all lines of their kind; the loop over the failregex in the tool and in the server side by side, by induction over the failregex.
* C116-C118: invariants over all histories (there is one handler, of the kind of the target; numbers of files are below the next one; the level told of has the number in force), then rotation step by step.
* C119-C121: the reading of words is proved equivalent to a relation of how options are written, by induction over the words; the effect of each known option by cases, of all of them by induction.
* C122: by induction over the entries; what a reader sees (lines, words, lines without branches) is defined apart.


## 5. Findings

Behaviour of the code that differs from what its documentation or a reader
expects. Each with `_refuted` is proved about the model by a concrete case.

* `C02_window_complete_refuted`: C02, refuted direction 2: an ID with maxretry failures within the last findtime seconds may not be handed out (maxretry 11: one failure at 0, nine at 599, two at 1198).
* `C02_window_sound_refuted`: C02, refuted direction 1: an ID may be handed out although fewer than maxretry of its failures lie in the last findtime seconds (3 failures at 0, 300, 601; findtime 600).
* `C04_unknown_id_refuted`: C04, refuted: asking for an ID that is not tracked may hand out another one.
* `C05_fixed_setting_needed_refuted`: C05, what fails if maxMatches may change: after 0 -> n the counter of a known ID is reset.
* `C08_lowered_bantime_refuted`: Without that condition the claim fails: after the jail's ban time is lowered, a ban that is over is not lifted by the next check (the cached next time is stale).
* `C09_exact_end_refuted`: The clock may step back: with an older ticket the ban lasts longer than asked.
* `C100_mixed_refuted`: The merged bans of an address are meant to be asked for once, but nothing is remembered (the attribute is asked for by a name that is not the mangled one): one command can get the matches of one answer and the failures of another.
* `C100_reset_refuted`: A reset for a changeable information gives the table of the class away: what is deleted then is gone for all bans.
* `C101_stale_refuted`: All else is remembered for ever: the number of bans in the stop command is the one of the start command.
* `C102_module_refuted`: C102, what fails: an option has its value whatever other options are called. The test meant for the name __name__ looks for the name of the module; if an option is called fail2ban.client.configparserinc, every value of the section is empty.
* `C103_case_refuted`: C103, what fails: an option of any section can be referred to. The name of a reference is put into lower case when it is looked up but not when it is entered: no option of a section with a capital letter can be referred to, and neither DEFAULT/option, although the code compares these names without regard to case.
* `C103_chain_refuted`: C103, what fails: each file may refer to what was known before it. If two files one after the other extend the same option of a third by %(known/option)s, the reference in the second is replaced by itself until the levels are used up.
* `C103_hidden_refuted`: C103, what fails: a reference has its value wherever it stands. After a doubled percent sign and a parenthesis the search for references runs over the next one.
* `C104_default_refuted`: C104, what fails: known/opt is what the option was before, otherwise what it is. Once any other option was overwritten, the default goes before the value of the section.
* `C104_scope_refuted`: C104, what fails: known/opt is what the option was before, as %(known/opt)s is. What was known is read in a scope of overwritten options only: if it refers to another option of its section, it is an error.
* `C105_lost_refuted`: A wake-up can be lost by a stop that was not forced and gave up: an event added between its request and its giving up finds no one to notify, and once the stop has restored the notification the observer sleeps on it with an event in its queue, until the next event is added or its sleep ends.
* `C106_last_refuted`: One purge that raises is the last: nothing sets the timer again, so the rows of expired bans stay from then on, until the server is started again.
* `C107_early_refuted`: A signal that comes while the server is starting is lost: everything is stopped that is not there yet, the start goes on, and from then on the command stop does nothing and the next signal ends the process without any cleaning.
* `C107_mute_refuted`: A little later, it leaves a server that answers every command with SHUTDOWN, and goes on with that.
* `C107_raise_refuted`: The same is left by a stop in which something raises: here the closing of the database.
* `C108_forced_refuted`: A server that was started with force loses it when the one it replaced ends.
* `C108_pid_refuted`: The PID file is not protected like that: a second server that is started without force, and that leaves the first one alone, overwrites its PID file and removes it at its end.
* `C108_restart_refuted`: A server that is started while the old one is ending loses the file of its socket: the old one removes it a second time when its loop has ended. Nobody used force; the new server serves, and no client finds it.
* `C109_crash_refuted`: An exception without arguments ends it at once: looking for its number raises within the handling.
* `C110_unclear_refuted`: Where one does not see the end, less may be read: the hour 23 as 2.
* `C111_decade_refuted`: But a process that runs for longer can miss the dates of a new decade: one that started in 2026 does not find those of 2030.
* `C111_time_refuted`: What is found need not be a time: the hour of %k goes up to 29, and the seconds up to 61.
* `C112_blank_refuted`: A pattern that begins with a field that may have a blank for a digit does not work (unless it has names): the blank of its expression is stripped, and what is left is no expression.
* `C112_dollar_refuted`: One that ends with a dollar that stands for itself does not work.
* `C112_percent_refuted`: Directly after a percent sign, names are found in lower case only: Jan is found after another character but not after a percent sign.
* `C112_twice_refuted`: No part may be named twice.
* `C113_negative_refuted`: With several lines it can be below zero: a line that was ignored is part of a later match.
* `C113_prefix_refuted`: And lines count as matched which no failregex matched, if there is a prefregex with a content.
* `C114_several_refuted`: With several lines, missed lines can be missing: here four were missed, three of them are printed.
* `C115_lookup_refuted`: A host name without addresses: the server finds nothing and tries no further failregex; fail2ban-regex does, and says matched.
* `C115_nofail_refuted`: With <F-NOFAIL> but without <F-MLFID>, fail2ban-regex says ignored, and the server counts a failure.
* `C115_undated_refuted`: A line without a date: fail2ban-regex says matched; the server, while it reads old messages, finds nothing.
* `C116_options_refuted`: Setting the target there is already with other options answers True, but the options are not applied.
* `C116_socket_refuted`: Setting the socket of syslog while syslog is the target answers True and getSyslogSocket tells of the new socket, but messages go to the old one: setLogTarget is called for the target there is already, and returns at once.
* `C117_again_refuted`: Setting the same file as the target again after it has been moved away answers True, but messages go on to the file moved away: only flushLogs opens the file anew.
* `C117_closed_refuted`: When the file cannot be opened again, flushLogs raises, and messages are lost until it can.
* `C122_break_refuted`: A file name may have a line break in it, and then it looks like two files.
* `C12_concurrent_unban_refuted`: The commands run in another thread than the main loop. If an unban command falls between the entry of a new ban and its ban actions, the action is asked to unban first and to ban afterwards, and the ID stays in the firewall although it is not banned.
* `C12_failed_flush_refuted`: An action with bulk flush and consistency check whose flush raises keeps the ID in its firewall after the ban list was flushed.
* `C12_norestored_refuted`: An action that opts out of restored bans is asked to unban what it never banned.
* `C13_raising_check_refuted`: If a consistency check raises during the flush, the banned IDs are forgotten without any unban, and the actions are not stopped.
* `C14_pace_refuted`: But the checks need not keep pace: with one ban per round, ten bans are followed by a check that may lift only two, although thirty bans are over.
* `C15_new_action_refuted`: The new configuration is not what the jail has after the reload: an action mentioned for the first time is dropped again ...
* `C15_python_action_refuted`: ... and so is a configured action that knows reload but not the reset of parameters.
* `C18_shortened_refuted`: Otherwise it may: with maxtime 300 and a ban time of 600, the second ban of an ID, made for 600 seconds, is cut down to 300.
* `C19_forced_stop_refuted`: A forced stop may drop waiting events.
* `C21_minus_one_refuted`: A ban that is over by exactly one second when its ticket is looked at is still put in the queue: the remaining time -1 is taken for "permanent" (jail.py:305-308).
* `C24_no_hash_refuted`: Without a first line hash (file empty when first seen) a first position of 0 is not noted, and a later first line counts as "another file": the noted position is forgotten.
* `C25_cr_refuted`: A part of a line that ends with CR is delivered as a line: more lines are delivered than the file has.
* `C25_stop_refuted`: A line that was read when the jail was being stopped is never delivered.
* `C25_utf16_refuted`: In a UTF-16LE log an empty line spoils the reading of what follows it.
* `C26_gap_refuted`: What is written to the old file between the last reading and the rotation is never delivered.
* `C26_overwritten_refuted`: A file overwritten in place by more than was read of it is read on where it was, in the middle of a line.
* `C26_same_first_line_refuted`: If the log is another file after a restart, but has the same first line, its lines are skipped.
* `C26_unseen_refuted`: If no complete line was seen in the old file, the lines of the new one are delivered twice.
* `C27_exact_refuted`: With lines of different lengths the place found can be far before the first line that is not older: here only the first of nine older lines is skipped, all lines have a time.
* `C27_inside_refuted`: The place found can be the end of an incomplete last line: what is written to it later is then read as a line.
* `C28_attempt_refuted`: Failures reported by a client are counted although the address is ignored.
* `C28_behind_file_refuted`: Behind a file no address that is not yet there can be added: comparing it with the file raises.
* `C28_cache_stale_refuted`: With a cache an address added to the list is still reported as not ignored, and one deleted as ignored, until the cached answer is forgotten.
* `C28_delete_spelling_refuted`: A single address can be deleted only by its usual text.
* `C28_file_slash_refuted`: "file:/etc/ign" names the relative file etc/ign.
* `C28_raw_string_refuted`: The manual allows a raw string in ignoreip; an ID that is this very string is not ignored.
* `C29_operation_refuted`: During operation a line older than findtime counts, if it is not older than a minute.
* `C29_yesterday_refuted`: During operation a line of yesterday counts as a failure of now.
* `C30_bad_mask_refuted`: A netmask with a number above 255 is not refused: the network becomes 0.0.0.0/0.
* `C30_wider_refuted`: Only the first address of a network is compared: a wider network counts as in a narrower one.
* `C31_cache_refuted`: A text in brackets poisons the cache of addresses: the answer for a text depends on what was asked before.
* `C31_dotted_refuted`: ... and for an IPv6 network whose text ends in dotted form: it is read as a name.
* `C31_mapped_refuted`: ... for an IPv4-mapped address given with a prefix length of 128 ...
* `C31_over_refuted`: The round trip of a network's text fails for a prefix length above the width of the address.
* `C31_raw_equal_refuted`: Two identifiers that are no addresses always compare equal, whatever their texts.
* `C31_zero_refuted`: The round trip fails for a prefix length of 0 and one above the width...
* `C32_subnet_refuted`: The PTR name of an IPv4 network has the prefix length in it.
* `C33_failed_read_refuted`: If reading fails once after the stats were seen, the new contents are not read until the file changes again, however late it is asked.
* `C34_full_cache_renewal_refuted`: Renewing a value in a full cache throws another, live value away, although no room is needed; so "as many keys as the maximum" would be wrong in C34_get_exact.
* `C34_live_evicted_refuted`: Expired entries that would make enough room do not save the next live one.
* `C34_zero_maximum_refuted`: A maximum of zero still holds one value.
* `C35_collision_refuted`: two tags may have the same variable: one value is then used for both
* `C35_eleven_refuted`: the eleventh variable gets the second value and a zero
* `C35_glue_refuted`: a tag before a letter: another variable is read, the value is lost
* `C35_nested_refuted`: a value can choose which capture is used where a template nests tags
* `C35_words_refuted`: blanks and leading dashes are no shell characters here: a value can become several words
* `C36_newline_refuted`: the shell itself reads an escaped newline as the letter n
* `C37_many_refuted`: one tag used in many others is taken for a ring
* `C38_after_close_refuted`: Requests behind the close command are still executed, but never answered.
* `C38_embedded_refuted`: A request that has the terminator in it (a ban with such a text, say) is two requests.
* `C38_short_send_refuted`: The client does not look how many bytes send() took: a part of the request then reaches the server as a whole request.
* `C39_digits_refuted`: Three single digits without units cannot be read: the second is eaten by the first match.
* `C39_leading_zero_refuted`: A number with a leading zero is no number, with decimals it is one.
* `C39_year_refuted`: A time of a year or more is written with years of 365 days and read with years of 365.25: the round trip is off.
* `C40_closed_refuted`: If it does raise (here: the database), the reload stays open; the next reload is refused, but its end removes every jail.
* `C41_database_refuted`: If it does not, a jail that is stopped stays in the registry, and cannot be started again.
* `C42_dead_refuted`: A jail whose threads have died is named in the configuration and is removed nevertheless.
* `C42_defaults_refuted`: A setting that is in the old configuration and not in the new one keeps its old value.
* `C42_dellog_refuted`: A log file taken away and added again during the reload is lost at the end.
* `C42_error_refuted`: One error in the stream, here a bad regular expression of the new jail: since the client puts all starts last, every jail that was running is stopped and removed.
* `C42_nested_refuted`: A stream in a stream: the quiet mode ends with the inner one, so that a command that is skipped in quiet mode ("attempt") is executed after it; a reload in a reload is refused, but its end removes the jails of the outer one.
* `C42_setting_refuted`: A jail named like a setting of the server is added, but its settings go to the server.
* `C43_check_refuted`: A consistency check that may not repair calls a family sane although its check failed.
* `C43_failed_start_refuted`: Not on demand, bans are made although the start failed.
* `C43_set_refuted`: Setting any parameter of a running action forgets which commands ran: the start command that both families share is run again while the first is up.
* `C43_shared_flush_refuted`: A flush whose command is the same for both families is skipped for the one if it ever ran for the other, although bans were made since: they stay in the firewall, and are not unbanned any more.
* `C44_listed_refuted`: Abbreviations of the zone table that can never be reached because no accepted zone text has their form.
* `C44_lower_refuted`: A zone in lower case is matched by the date patterns (they ignore case), but is no zone.
* `C44_unknown_refuted`: A text of the accepted form whose abbreviation is not known does not count as an unknown zone: it raises a KeyError, which the reading of dates does not expect (a date with "BST" ends the reading of the line with an error); two-letter names are in the table but not accepted.
* `C45_day_366_refuted`: Day 366 of a year that has 365: the first day of the next year.
* `C45_error_refuted`: Some lines raise what the caller does not expect: a month without a day; an optional "am/pm" that is not there.
* `C45_leap_day_refuted`: The 29th of February without a year is no date when this year has no such day, although last year had one; nor, in a leap year, before that day, as last year had none.
* `C45_week_ahead_refuted`: A week without a year can put the date far ahead of the clock.
* `C45_zone_day_refuted`: With a zone, a date of last year loses the day that the zone shifted it by: 31 December 20:00 at -0500 is 1 January 01:00 at Greenwich, and becomes 31 December 01:00, a day too early.
* `C45_zone_today_refuted`: A time of the day with a zone is compared with the local clock as if that were Greenwich time: on a host eight hours behind, a line written five minutes ago in UTC is taken for one of the day before.
* `C46_used_first_refuted`: After such an error a used template may stand behind an unused one
* `C47_fell_idle_refuted`: The same when the filter falls idle within the pass, and after it wakes up again
* `C47_missing_refuted`: Nor is a missing log only its own loss: two missing logs make the filter idle before either is dropped, and the others are no longer read.
* `C47_noticed_refuted`: C47, what fails: a change that was noticed is read at once or later. An exception while another log is read ends the pass, and what was noticed is forgotten: the log is not read before it changes again.
* `C47_other_refuted`: An error that is not one of the system ends the pass: what was noticed before it in the same pass is lost as well.
* `C48_again_refuted`: C48, what fails: a file overrides what it lists as before. A file listed as before by the local version too is read again after it.
* `C48_shared_refuted`: C48, what fails with circles: what is read depends on what was read before with the same shared configuration.
* `C48_terminates_refuted`: C48, what fails: reading ends for all files. A local file that includes the file it belongs to is read for ever.
* `C50_activity_refuted`: A session is forgotten 300 seconds after its first line although it was active since: the address is lost.
* `C50_many_refuted`: With more than 100 sessions a live one is pushed out, and its failure has no address.
* `C50_name_refuted`: A failure ID is not used if the host is a name that is looked up.
* `C50_nofail_refuted`: Without a session the mark "nofail" has no effect: the match is counted.
* `C53_batch_refuted`: The list of actions to repeat is computed once per pass: a ticket that needs more of them than the first one gets only those of the first one, and is then taken for up to date, so that it is never repeated in the others.
* `C55_stale_after_delete_refuted`: After deleting a ban the remembered answer is still given.
* `C55_stale_for_all_refuted`: The answer for all IDs is remembered too and a new ban does not correct it.
* `C56_dotted_refuted`: A text in dotted form inside an IPv6 address is not taken for an address but resolved.
* `C57_empty_match_refuted`: An empty match at an empty line doubles this line; one at the start of the buffer takes all lines.
* `C57_form_feed_refuted`: A skipped line with a form feed in it is taken by the match.
* `C57_same_text_refuted`: Of lines with the same text but for the time stamp the wrong one may remain: here the match begins with the first line and skips the second.
* `C59_nobody_refuted`: After a match that names nobody the other failregex get nothing to match: a line that matches the second alone is not counted.
* `C59_prefregex_refuted`: With a prefregex, whether an ignoreregex sees the whole line or only what the prefregex takes as content depends on the number of expressions.
* `C59_several_refuted`: With several lines: a failure that is ignored by its own lines, one that is found although the kept line would be ignored; but if there are three more failregex, the whole buffer is looked at first, and the same failure is ignored.
* `C60_prefregex_refuted`: With a prefregex and several lines the buffer keeps only the content of the line: a failure that spans two lines is not found.
* `C63_empty_line_refuted`: An empty line in a log without dates (the empty template of datepattern {NONE}) is an error
* `C63_history_refuted`: The date found depends on the lines before, even with one template
* `C63_nearest_refuted`: It is not always the nearest date that is found: the last template of the list is taken although another one finds a date more to the left
* `C64_case_refuted`: C64: two patterns without a percent sign that differ in their case are taken for the same: \s for \S
* `C67_crash_before_store_refuted`: A ban that the observer has not stored when the server dies is lost.
* `C67_prolonged_refuted`: A further ban of a banned ID makes the running ban end later, but this is not stored: after a restart the ban ends when it first should have.
* `C67_unban_before_store_refuted`: A ban that is lifted before the observer has stored it is stored afterwards, and comes back with the next restart.
* `C67_unban_waiting_refuted`: An ID that is unbanned while its restored ban still waits in the jail's queue is banned all the same.
* `C68_blank_refuted`: A blank between a quoted value and the comma after it is not accepted, although blanks are accepted at every other place around a comma, and there too if the value is not quoted.
* `C68_missing_comma_refuted`: If the comma between two options is missing, the text is accepted and the second option becomes a part of the value of the first.
* `C69_comma_comment_refuted`: A comment directly behind a comma is not a comment but a word.
* `C70_blank_before_bracket_refuted`: Blanks between the name of an action and its options are accepted when the list is split, but they then belong to the name, so that an action with that name is looked for.
* `C71_words_refuted`: Finding: filterreader.py:96 asks `opt in ('datepattern')`, a search in a text, not in a tuple. A parameter of a filter the name of which is a part of "datepattern" - here "date" - is sent to the server as a setting of the jail, which the server refuses.
* `C72_jail_first_refuted`: Finding: an option set in the jail does not always count. If the filter's file sets maxlines in its section [Init] - as filter.d/mongodb-auth.conf does - then maxlines in the jail has no effect, although a date pattern set there has.
* `C73_isolated_refuted`: Finding: a jail whose log file is missing keeps all other jails from being configured, since the exception is not caught where the jails are converted, while a jail with a wrong filter does not.
* `C74_wrong_number_refuted`: Finding: a wrong number for an option without a default, like maxretry = five, is not left out, but the server is told to set the option to None.
* `C75_unique_refuted`: Finding: "ensure we've unique action name per jail" (actionreader.py:64) is not ensured: in the jail "ssh", ban[name=ssh-a] and ban[name=a] are both called "ban-a"; the server refuses the second.
* `C76_above_refuted`: Finding: only the directory of a log is watched, not those above it. If one of those is moved and made anew, with all that is in it, then no event tells so, and the lines of the new file are not read.
* `C76_race_refuted`: Finding: the directory of a log is removed, made anew, found, and moved away again just before its new watch is set (filterpyinotify.py:205-210, 247-248). Adding the watch fails, which is not noticed, so the directory is neither watched nor waited for. When it is there again, with the log, then the log is found, but after its next rotation nothing leads to it, and nothing is read.
* `C76_renamed_refuted`: Finding: if the file of one log is renamed to the path of another log of the same jail, as by rotation with both names matching logpath, then inotify gives both paths the same watch; when the first path gets a new file, that watch is removed, and the second path is no longer watched.
* `C76_root_refuted`: Finding: the path of a directory with a slash appended is compared with the paths of the logs (filterpyinotify.py:287), which gives two slashes for the root directory. Of two logs in the root directory, removing one ends the watching of the directory for the other, and after a rotation nothing is read.
* `C77_idle_refuted`: Finding: an event that comes while the jail is idle is dropped (filterpyinotify.py:134). When the jail is no longer idle, the lines written in between are not read, nothing waits for them, and no check finds them; the thread is at rest until the log is written again.
* `C78_starved_refuted`: Finding: the time to wait is doubled while it is below a minute, so that 51.2 s become 102.4 s; but a check is made every minute at least, a path is looked at only if its time to wait has passed since the last check, and every check counts as the last one, also for paths it did not look at (filterpyinotify.py:164-180). So a directory that was missing for 102.2 s is never looked for again, as long as the thread looks after its work at least every 21 s - it does so every second. The directory is there again, the log is written: nothing is read.
* `C79_leak_refuted`: Finding: with a log in a directory below that of another log, a directory may be watched for ever. When the log /a/x is removed, /a stays watched because of /a/b/y; when that is removed, only /a/b is given up. No log is left, and /a is watched.
* `C80_closed_twice_refuted`: A closing tag that closes nothing is not left as it is, nor refused: once the group was opened anywhere before, every further [</F-USER>] becomes a parenthesis, so the expression is no longer balanced (or closes a group of the user's own).
* `C81_numbered_refuted`: jail.conf(5): a value found as [<F-ALT_USER1>] is stored as [F-USER] if there is no direct match. It is not: only a number after an underscore is taken off the name, so the value is stored as [user1] and the user stays empty. Two shipped filters (vsftpd, dovecot) use this spelling.
* `C81_order_refuted`: The parts are taken in the order of their names as texts, not of their numbers: the tenth alternative comes before the second, and the components of a tuple are out of order from the tenth on.
* `C82_alternatives_refuted`: An expression that gives the address only as alternatives is refused for having no failure ID, although a match of it would have one.
* `C82_prefix_refuted`: jail.conf(5): a value matched in the failregex overwrites one matched in the prefix expression. A group of the failregex that took no part in the match overwrites it as well: here the address found by the prefix expression is lost because the failregex has an optional address, and nobody is banned.
* `C83_backslash_refuted`: An expression in which the group follows an escaped backslash keeps its flags where they are, which Python does not allow in the middle of an expression: it is refused.
* `C84_chatty_refuted`: FINDING: nobody reads the output while waiting. A command that writes more than fits into a pipe, and would end at once if it was read, never ends: it is killed after the timeout, whatever that is, and counts as failed.
* `C84_start_refuted`: FINDING: when the ignore command cannot be started (no memory, arguments too long) the single value that is returned cannot be unpacked: an error (TypeError) instead of 'not ignored'.
* `C85_lock_refuted`: FINDING: the timeout does not limit the reading. A command that fails at once (status 1) and has left a process behind that holds its output is read from as long as that process lives, here forever; and all other commands of all jails wait for it.
* `C85_success_refuted`: FINDING: a command that takes too long, and that ends with status 0 when it gets SIGTERM, counts as succeeded: that it was stopped is only logged.
* `C86_empty_refuted`: An empty alternative (a plus sign at the end) has no condition that an entry could fail, and it is listed; but the journal drops it, so it does not choose every entry.
* `C86_undo_refuted`: A match with a plus sign can be added but not deleted with the same words: the alternatives are listed one by one, so the whole is not found and delJournalMatch is an error.
* `C87_rotation_refuted`: Rotation: the journal is invalidated while the entry of the position has been removed and older ones are still there. The move back and forth goes to an older entry and then to the next one, which was not read yet: it is passed over.
* `C87_start_refuted`: The start of a jail whose matches select no entry yet: the thread looks for the last entry, and then seeks to the present time. An entry that is written in between is before that time and is never read.
* `C87_twice_refuted`: When matches are deleted and added again around an invalidation, the position goes back to an older entry: an entry that was read is read, and its failure counted, a second time.
* `C88_again_refuted`: The position is the time when the message was made (_SOURCE_REALTIME_TIMESTAMP), but the seek compares the time when the journal received it, which is a little later: after a restart the last entry is read again and its failure is counted a second time.
* `C88_stop_refuted`: When an entry that cannot be made a line is followed by the stop, the position of the entries that were handed over before it is not stored: they are read again at the next start.
* `C88_tie_refuted`: Two entries of one and the same time: when the stop comes between them, the second is not later than the stored position and is lost.
* `C89_error_refuted`: An error of reading (OSError) while the backlog is read is taken as the end of the journal: operation mode begins, and the old entries that follow count as if they just happened.
* `C91_name_refuted`: FINDING: a jail called like a setting of the server (here: loglevel) is added and started, but its settings are taken for settings of the server: it has no regular expression. (server/transmitter.py:168-217)
* `C91_one_wrong_refuted`: FINDING: one regular expression the server does not take, in one of the jails, keeps all jails from being started (although a jail with an unreadable filter is only skipped); in the background the server stays, with the jails added so far, none of which runs. (client/fail2banclient.py:181-222, server/transmitter.py:119-129)
* `C92_removed_refuted`: FINDING: what the configuration does not say any more is not taken back by a reload: the jail keeps the old value, while the same configuration gives a new server no such setting.
* `C94_once_refuted`: Without the system's word whether it has IPv6, and without known addresses of the interfaces, that is found out from the own names in the middle of the lookup of a name, and then this lookup asks again.
* `C95_full_name_refuted`: If the resolver knows no canonical name for the host, its full name is Python's None instead of the name socket.getfqdn() finds (which fq-hostname then shows as such): the result of the generator is tested for being true, and a generator always is.
* `C95_stale_refuted`: The caches are filled from one another, so an own address may be as old as three times the five minutes: here the host has its new name from time 1 on, and until 897 the address of the old one is taken for an own one.
* `C96_switch_refuted`: Switched off while the server runs, without a reload, IPv6 addresses are still given, up to five minutes long.
* `C98_crash_refuted`: A crash after the table of the current bans was added and before it was filled: the version is the current one already, so no later start fills it, and a permanent ban of the database is not restored any more.
* `C99_failed_upgrade_refuted`: An upgrade that is not possible: the start fails although afterwards a new database is in place, without a single ban of the old one, so that the next start knows none of them.
* `C99_stuck_refuted`: A crash while a new database is created can leave a version table without a row: then every later start fails, and nothing is repaired.
