{"id": "C01", "title": "A ban needs at least maxretry reported failures", "statement": "Whenever the failure manager hands out an ID to be banned, that ID has been reported at least maxretry times (each report weighted by its count) since the last moment it was unknown to the manager; the retry counter of an ID never exceeds the weight of the failures actually reported for it.", "quantifier": "every sequence of addFailure / cleanup / delFailure / toBan / setMaxRetry / setMaxTime calls, with any IDs, times (also going backwards) and counts", "why_tests_cant": "The counter is decayed, clipped and reset by interleaved operations; a test samples a handful of histories while an over-count may need a particular order of clock jumps and clean-ups.", "anchors": ["fail2ban/server/failmanager.py: FailManager.addFailure, toBan, cleanup, delFailure", "fail2ban/server/ticket.py: FailTicket.adjustTime, inc, setRetry"]}
{"id": "C02", "title": "Failures inside one findtime window are counted exactly", "statement": "If all recorded failures of an ID lie within findtime of each other, its retry counter equals the number of failures reported, so the maxretry-th one makes it bannable (not the one before). For histories longer than findtime the counter is only an estimate: it is neither an upper nor a lower bound of the number of failures within the last findtime seconds (both directions refuted by a concrete history).", "quantifier": "every history of failures of one ID, interleaved with arbitrary operations on other IDs; every maxretry and findtime", "why_tests_cant": "The boundary case (exactly findtime) and the rounding of the decay only show for particular spacings of failures.", "anchors": ["fail2ban/server/failmanager.py: FailManager.addFailure, toBan", "fail2ban/server/ticket.py: FailTicket.adjustTime"]}
{"id": "C03", "title": "Cleanup forgets exactly the outdated IDs", "statement": "After cleanup at time t precisely the IDs whose last failure is at or before t - findtime are gone; every other ID keeps its ticket unchanged and in the same order.", "quantifier": "every state of the failure manager, every time", "why_tests_cant": "The implementation has three code paths selected by how many entries are outdated; tests hit one size for each.", "anchors": ["fail2ban/server/failmanager.py: FailManager.cleanup"]}
{"id": "C04", "title": "Failures of one ID never influence another ID", "statement": "Reporting, deleting or banning one ID leaves the tickets of all other IDs untouched; asking to ban one particular known ID never hands out another one. Asking for an ID which is not tracked is refuted: it may hand out a different ID.", "quantifier": "every state and every pair of different IDs", "why_tests_cant": "Isolation is a statement about all pairs of IDs in all states.", "anchors": ["fail2ban/server/failmanager.py: FailManager.addFailure, toBan, delFailure"]}
{"id": "C05", "title": "Stored matched lines are bounded and are the newest ones", "statement": "While max matches is a fixed m > 0, a tracked ID never holds more than max(m, number of lines its first ticket came with) lines, and after a further failure it holds exactly the last min(m, ..) lines of everything reported.", "quantifier": "every sequence of failure reports", "why_tests_cant": "Memory bounds are claims about unboundedly long histories.", "anchors": ["fail2ban/server/failmanager.py: FailManager.addFailure, setMaxMatches", "fail2ban/server/ticket.py: FailTicket.inc, Ticket.setMatches"]}
{"id": "C06", "title": "At most one active ban per ID, and the ban list is exactly what was banned and not unbanned", "statement": "For every history the list of banned IDs has no duplicates and equals the IDs successfully added and not since removed, expired or flushed; the total counter counts exactly the successful additions.", "quantifier": "every history of add / unban / flush / remove / set-bantime operations at arbitrary times", "why_tests_cant": "Uniqueness and bookkeeping are invariants over histories of any length.", "anchors": ["fail2ban/server/banmanager.py: BanManager.addBanTicket, unBanList, flushBanList, getTicketByID, getBanList"]}
{"id": "C07", "title": "No ban is lifted before its time, permanent bans never by expiry", "statement": "Every ticket returned by an expiry check at time t has its end of ban strictly before t under the ban time in force; a permanent ban (-1) is never returned by an expiry check at any time representable by the server.", "quantifier": "every ban-manager state (also unreachable ones), every time and count limit", "why_tests_cant": "An early unban may only appear for a specific combination of cached next-unban time and prolonged tickets.", "anchors": ["fail2ban/server/banmanager.py: BanManager.unBanList", "fail2ban/server/ticket.py: Ticket.getEndOfBanTime, isTimedOut"]}
{"id": "C08", "title": "Expired bans are lifted by the next expiry check", "statement": "As long as the default ban time is not lowered and no ban is shortened while tickets are active, an expiry check at t without hitting the limit leaves no ticket whose end of ban is before t, and a limited check removes exactly the limit and is due again immediately; repeated checks drain all. With a lowered default ban time this is refuted: expired tickets remain banned.", "quantifier": "every history and every expiry time", "why_tests_cant": "The cached next-unban time must be a lower bound after every operation order; tests use a few orders.", "anchors": ["fail2ban/server/banmanager.py: BanManager.unBanList, addBanTicket, setBanTime", "fail2ban/server/actions.py: Actions.run"]}
{"id": "C09", "title": "Banning again only ever extends a ban", "statement": "Adding a ticket for an already banned ID never shortens the ban, never creates a second entry and never increments the total; if the new ticket ends later the ban then ends at or after the requested end.", "quantifier": "every ban-manager state and ticket", "why_tests_cant": "Ranges over all combinations of old/new start times and durations including permanent.", "anchors": ["fail2ban/server/banmanager.py: BanManager.addBanTicket"]}
{"id": "C10", "title": "Ban listing is complete and sorted by end of ban", "statement": "The ordered ban list is a permutation of the active bans sorted by end of ban, equal ends in order of ban.", "quantifier": "every ban-manager state", "why_tests_cant": "Sortedness for all states.", "anchors": ["fail2ban/server/banmanager.py: BanManager.getBanList"]}
{"id": "C11", "title": "Every action sees every ban once, failing actions do not affect others", "statement": "For each fresh ban every configured action (except those that opt out of restored bans for a restored ticket) is invoked exactly once, in configuration order, whatever subset of the actions raises; the ticket is then in the ban list.", "quantifier": "every list of actions, every assignment of failures to invocations, every ticket stream", "why_tests_cant": "Exception isolation must hold for every subset of failing actions.", "anchors": ["fail2ban/server/actions.py: Actions.__checkBan, __unBan"]}
{"id": "C12", "title": "Ban and unban of each ID alternate for every action", "statement": "In the command log of any action without flush/opt-out, ban and unban of the same ID strictly alternate starting with ban, for any history of failures, duplicates, manual unbans, expiry checks and stop; after stop every ban has been matched by an unban.", "quantifier": "every history of the actions thread and every pattern of action failures", "why_tests_cant": "Alternation is a trace property over unbounded histories.", "anchors": ["fail2ban/server/actions.py: Actions.run, __checkBan, __checkUnBan, __flushBan, __unBan, removeBannedIP"]}
{"id": "C13", "title": "Stopping or flushing a jail unbans everything exactly once per action", "statement": "After a flush the ban list is empty and for every previously banned ID each action was asked to unban it exactly once, unless that action flushed in bulk; an action whose bulk flush raises and whose environment could be verified is skipped (documented divergence).", "quantifier": "every ban list, every set of actions and every failure pattern", "why_tests_cant": "Combination of flush support, failures and restore is exponential.", "anchors": ["fail2ban/server/actions.py: Actions.__flushBan, stopActions"]}
{"id": "C14", "title": "Expiry checks are not starved by an endless stream of new bans", "statement": "In every run of the actions main loop an expiry check happens after at most ten newly banned tickets' worth of iterations, however many tickets keep arriving, and each check releases at most the unban limit.", "quantifier": "every infinite arrival schedule of tickets", "why_tests_cant": "Fairness is a property of unbounded schedules.", "anchors": ["fail2ban/server/actions.py: Actions.run, __checkBan, __checkUnBan"]}
{"id": "C15", "title": "Actions registry under reload", "statement": "A reload keeps exactly the actions mentioned in the new configuration that were known before (same object, reloaded once), and removes the others after unbanning through them. An action newly mentioned in the reload stream of a running jail, or a Python action without parameter reset, is refuted: it is dropped at the end of the reload.", "quantifier": "every set of configured actions before and after the reload", "why_tests_cant": "Set-difference law over all configurations.", "anchors": ["fail2ban/server/actions.py: Actions.add, reload, stopActions"]}
{"id": "C16", "title": "Unban command semantics", "statement": "Unbanning a banned ID removes exactly that ID (and deletes its stored ban), runs each action's unban once; an unknown ID is an error unless if-exists; unbanning a list unbans precisely the listed banned IDs and reports all missing ones together; a subnet unbans precisely the banned IDs it contains.", "quantifier": "every ban list and every argument list", "why_tests_cant": "Frame condition over all states and lists.", "anchors": ["fail2ban/server/actions.py: Actions.removeBannedIP", "fail2ban/server/ipdns.py: IPAddr.contains"]}
{"id": "C17", "title": "The ban queue is first-in first-out and loses nothing", "statement": "Tickets put into a jail's queue by filters are taken by the actions thread in the same order, each exactly once, under every interleaving of producers and consumer.", "quantifier": "every interleaving of put and get", "why_tests_cant": "Schedules.", "anchors": ["fail2ban/server/jail.py: Jail.putFailTicket, getFailTicket, hasFailTickets"]}
{"id": "C18", "title": "Ban-time increment formula", "statement": "With increment enabled the computed ban time never exceeds maxtime (plus the random spread), is never below the configured ban time for the default exponential formula with factor >= 1 when maxtime permits, is monotone in the ban count, and uses the last multiplier for counts beyond the list; permanent bans are never incremented.", "quantifier": "every ban time, count, factor, multiplier list, maxtime, random value", "why_tests_cant": "Arithmetic over all integers incl. the shift cap 20.", "anchors": ["fail2ban/server/jail.py: Jail.setBanTimeExtra", "fail2ban/server/observer.py: ObserverThread.calcBanTime, incrBanTime"]}
{"id": "C19", "title": "Observer work is processed in order, one failing event never blocks the next", "statement": "Events given to the observer before its stop are executed in FIFO order exactly once each, whether or not earlier handlers raise.", "quantifier": "every event sequence and failure pattern", "why_tests_cant": "Trace property over all interleavings.", "anchors": ["fail2ban/server/observer.py: ObserverThread.add, run, stop"]}
{"id": "C20", "title": "Known offenders need fewer failures, never more, and never ban themselves with a single counted failure below threshold", "statement": "When the observer processes a failure of an ID with earlier bans, the extra weight it adds is at least 0 and less than maxretry, grows with the number of earlier bans, and never affects unknown IDs (no row in the database), failures at or before the last ban, or jails without increment.", "quantifier": "every database content, ban count, maxretry", "why_tests_cant": "Range over all counts incl. the 1<<20 cap and the half-unit case.", "anchors": ["fail2ban/server/observer.py: ObserverThread.failureFound"]}
{"id": "C21", "title": "A restart restores exactly the unexpired bans of the jail", "statement": "For any history of addBan/delBan in the persistent database, after a restart the jail restores exactly the latest stored ban of each of its IDs that has not expired at restart time, marked restored, with the remaining end-of-ban unchanged.", "quantifier": "every stored history and restart (crash) time", "why_tests_cant": "Crash points and histories.", "anchors": ["fail2ban/server/database.py: addBan, delBan, getCurrentBans", "fail2ban/server/jail.py: Jail.restoreCurrentBans"]}
{"id": "C22", "title": "Database purge never removes a live record", "statement": "A purge deletes a per-jail current-ban record only if the ban started before the purge age and is over (its end is before now), never a permanent one; a history row only if older than the purge age; a jail only if disabled and no ban references it. What would be restored on a restart at that moment is therefore unchanged by a purge.", "quantifier": "every database state and time", "why_tests_cant": "All states.", "anchors": ["fail2ban/server/database.py: purge"]}
{"id": "C23", "title": "Ban history round-trip", "statement": "After addBan the stored count/time/bantime for (ID, jail) are the ticket's; delBan removes all rows of precisely the ID (or the jail, or all); other jails' rows are untouched.", "quantifier": "every database state", "why_tests_cant": "Frame conditions.", "anchors": ["fail2ban/server/database.py: addBan, delBan, getBan"]}
{"id": "C24", "title": "Log position round-trip across restarts", "statement": "The position stored for a log of a jail is what the next addLog of the same file (same first-line hash) returns; a changed first line yields position 0; other (jail, file) pairs are unaffected.", "quantifier": "every interleaving of addLog/updateLog over jails and files", "why_tests_cant": "Histories.", "anchors": ["fail2ban/server/database.py: _addLog, _updateLog"]}
{"id": "C25", "title": "Every complete log line is delivered exactly once, in order, whatever the write chunking", "statement": "For an append-only log file, for every schedule of partial writes and reads, the concatenation of the lines delivered equals the complete lines of the file so far, each exactly once, and an incomplete last line is delivered only once completed.", "quantifier": "every file content, every split of it into writes, every read schedule", "why_tests_cant": "Chunking and schedules are unbounded.", "anchors": ["fail2ban/server/filter.py: FileContainer.open, readline, getFailures"]}
{"id": "C26", "title": "Log rotation and restart", "statement": "When the file is replaced (different inode or shrunk, first line differs) reading restarts at position 0 of the new file; when it is unchanged reading resumes at the saved position.", "quantifier": "every rotation history", "why_tests_cant": "Histories of file-system events.", "anchors": ["fail2ban/server/filter.py: FileContainer.__init__, open, close"]}
{"id": "C27", "title": "seekToTime never skips a line newer than the limit", "statement": "For a log whose timestamps are non-decreasing, the position found by the bisection is such that every line before it is older than the requested date.", "quantifier": "every file with monotone dates, any line lengths, lines without dates", "why_tests_cant": "Bisection boundary conditions for every layout.", "anchors": ["fail2ban/server/filter.py: FileFilter.seekToTime"]}
{"id": "C28", "title": "Ignored IPs never reach the failure manager", "statement": "A failure whose ID is matched by ignoreip, ignoreself or ignorecommand is never counted nor banned; one not matched is always counted if inside the find window.", "quantifier": "every ignore list and address", "why_tests_cant": "Membership over all networks.", "anchors": ["fail2ban/server/filter.py: Filter._inIgnoreIPList, inIgnoreIPList, processLineAndAdd"]}
{"id": "C29", "title": "Failures older than findtime are not counted", "statement": "While the log written before the start is read, a line whose time is older than now - findtime produces no failure and changes nothing that is counted; every failure is counted at the time of its line (its own time stamp, else that of a recent line before, never in the future); in operation a time more than a minute away from now is replaced by now.", "quantifier": "every line stream and clock", "why_tests_cant": "All clocks.", "anchors": ["fail2ban/server/filter.py: Filter.processLine, processLineAndAdd"]}
{"id": "C30", "title": "Network membership is the mathematical one", "statement": "For well formed addresses and networks, 'address in network' answers true iff the families agree and the leading prefix-length bits agree; a single address is in itself only; masks given as netmask or prefix mean the same network.", "quantifier": "all 2^32 / 2^128 addresses and all prefix lengths", "why_tests_cant": "Domain too large to enumerate.", "anchors": ["fail2ban/server/ipdns.py: IPAddr.isInNet, contains, maskplen, __init"]}
{"id": "C31", "title": "Textual IPv4/CIDR round-trip and canonical network", "statement": "Parsing the text of an address gives the same address, the network keeps only the prefix bits; the printed form of an address with prefix parses back to an equal address (refuted for /0).", "quantifier": "all addresses and prefix lengths", "why_tests_cant": "Domain size.", "anchors": ["fail2ban/server/ipdns.py: IPAddr.ntoa, __init, __wrap_ipstr"]}
{"id": "C32", "title": "Reverse-lookup name", "statement": "The PTR name consists of the address' octets (nibbles) in reverse order followed by the suffix; different addresses have different names.", "quantifier": "all addresses", "why_tests_cant": "Domain size.", "anchors": ["fail2ban/server/ipdns.py: IPAddr.getPTR, getHost"]}
{"id": "C33", "title": "IP set membership", "statement": "An IP set (ignoreip, DNS-derived or file-backed set) contains an address iff it equals one of the single members or lies in one of the networks, for any sequence of add and remove.", "quantifier": "every set history and address", "why_tests_cant": "Histories.", "anchors": ["fail2ban/server/ipdns.py: IPAddrSet.add, __contains__, FileIPAddrSet"]}
{"id": "C34", "title": "Bounded cache: never stale, never oversize", "statement": "The TTL cache returns a value only if it was the last one stored for that key and was stored less than the TTL ago; it never holds more than its maximum number of entries (for a positive maximum).", "quantifier": "every sequence of set/get/unset at any times", "why_tests_cant": "Histories.", "anchors": ["fail2ban/server/utils.py: Utils.Cache"]}
{"id": "C35", "title": "Substituted values cannot inject shell metacharacters", "statement": "For every action command and every attacker-controlled tag value, the command text passed to the shell contains the value either not at all (only as shell variable reference, with the value passed as a separate argument) or verbatim only if it has none of the shell special characters; substituted text is never re-scanned for tags.", "quantifier": "every command template and every string value", "why_tests_cant": "All strings.", "anchors": ["fail2ban/server/action.py: CommandAction.replaceDynamicTags", "fail2ban/server/utils.py: Utils.buildShellCmd"]}
{"id": "C36", "title": "Shell escaping is faithful", "statement": "escapeTag output, read by a POSIX-like unescape, is the original value, and contains no unescaped special character.", "quantifier": "every string", "why_tests_cant": "All strings.", "anchors": ["fail2ban/server/action.py: CommandAction.escapeTag"]}
{"id": "C37", "title": "Tag interpolation terminates, resolving every known tag", "statement": "Recursive tag substitution always terminates: result has no resolvable tag left, or a cycle / excess is reported as error; values without tags are unchanged.", "quantifier": "every tag dictionary incl. cyclic ones", "why_tests_cant": "All graphs.", "anchors": ["fail2ban/helpers.py: substituteRecursiveTags", "fail2ban/server/action.py: CommandAction.replaceTag"]}
{"id": "C38", "title": "Client/server framing is exact for any chunking", "statement": "For every list of messages not containing the terminator and for every split of the byte stream into chunks, the receiver delivers exactly these messages in order; the client receives exactly the answer.", "quantifier": "every byte string, every chunking", "why_tests_cant": "Chunking schedules.", "anchors": ["fail2ban/server/asyncserver.py: RequestHandler", "fail2ban/client/csocket.py: CSocket.receive, send", "fail2ban/protocol.py: CSPROTO", "fail2ban/compat/asynchat.py: async_chat.handle_read"]}
{"id": "C39", "title": "Time abbreviations", "statement": "str2seconds of the text printed by seconds2str denotes the same number of seconds (exactly for the full form); units are additive and case rules as documented.", "quantifier": "all numbers of seconds", "why_tests_cant": "Unbounded domain.", "anchors": ["fail2ban/server/mytime.py: MyTime.str2seconds, seconds2str"]}
{"id": "C40", "title": "Commands never kill the server and leave it in a consistent logging state", "statement": "Every client command yields an answer (0, value) or (1, error), for any command and any failing handler; after a reload command, success or failure, the quiet flag is off and the reload state is closed.", "quantifier": "every command and every failure point", "why_tests_cant": "Every failing point in the stream.", "anchors": ["fail2ban/server/transmitter.py: Transmitter.proceed, __commandHandler"]}
{"id": "C41", "title": "Jail registry", "statement": "Jail names are unique; adding an existing name is rejected, deleting an unknown one is rejected; all others unaffected.", "quantifier": "every history", "why_tests_cant": "Histories.", "anchors": ["fail2ban/server/jails.py: Jails"]}
{"id": "C42", "title": "Configuration reload is a diff", "statement": "After a reload of all jails with a stream naming a set of jails, exactly the named jails are running; a jail that was running with the same backend keeps its object (and bans); jails not named are stopped.", "quantifier": "every set of running jails and every stream of add/start commands, failing or not", "why_tests_cant": "Set law over all configurations.", "anchors": ["fail2ban/server/server.py: Server.reloadJails, addJail, startJail, delJail"]}
{"id": "C43", "title": "Command action lifecycle", "statement": "actionstart runs before the first ban of its family and not again while started; unban runs only for a family that banned; stop runs actionstop only for started families and afterwards nothing is started; flush only when something was banned since.", "quantifier": "every history of start/ban/unban/flush/stop/reload and every command outcome", "why_tests_cant": "Histories and outcomes.", "anchors": ["fail2ban/server/action.py: CommandAction.start, ban, unban, flush, stop, _processCmd, _executeOperation"]}
{"id": "C44", "title": "Time zone arithmetic", "statement": "A log date with an explicit zone offset denotes the same instant whatever zone it is written in; supported abbreviations agree with their offsets; validation accepts exactly the zones conversion can handle.", "quantifier": "all dates and offsets", "why_tests_cant": "Domain size.", "anchors": ["fail2ban/server/strptime.py: zone2offset, validateTimeZone, reGroupDictStrptime"]}
{"id": "C45", "title": "Dates without year/day are resolved to the recent past", "statement": "A date without a year is taken from the current year unless this would be in the future, then from the previous year; a time without date is today or, if in the future, yesterday; the result is never in the future (beyond a day) and is the most recent such moment.", "quantifier": "all dates and current times", "why_tests_cant": "Domain size, boundaries.", "anchors": ["fail2ban/server/strptime.py: reGroupDictStrptime"]}
{"id": "C46", "title": "Date detector keeps all its templates", "statement": "Re-sorting templates by hits never loses or duplicates a template and only ever moves the template just hit towards the front.", "quantifier": "every sequence of hits and times", "why_tests_cant": "Histories.", "anchors": ["fail2ban/server/datedetector.py: DateDetector._reorderTemplate, _appendTemplate"]}
{"id": "C47", "title": "Polling notices every change of modification time, size or inode", "statement": "A pass notices a polled log as changed iff its (mtime, inode, size) triple differs from that of the last successful check, and reads the noticed logs in their order, all of them unless an exception ends the pass or the filter falls idle; more than fifty consecutive failing checks (and only then, besides removal by the user) remove the log; one success resets the count; fewer than a hundred errors never make the filter idle.", "quantifier": "every sequence of file states", "why_tests_cant": "Histories.", "anchors": ["fail2ban/server/filterpoll.py: FilterPoll.isModified"]}
{"id": "C48", "title": "Configuration inclusion terminates with documented precedence", "statement": "Reading a configuration with arbitrary includes, circles among them, terminates unless local versions of files drag each other in in circles; before-files are read before, after-files after the file itself, .local after .conf; the last value said of an option wins and the one before it stays known; sharing files between readings changes nothing where there are no circles.", "quantifier": "every include graph", "why_tests_cant": "All graphs.", "anchors": ["fail2ban/client/configparserinc.py: SafeConfigParserWithIncludes._getIncludes, read"]}
{"id": "C49", "title": "wait_for contract", "statement": "wait_for returns a true value only if the condition was true at a check, returns at once if it is true at call, and checks the condition at least once and after the time-out at most once more.", "quantifier": "every timing of the condition", "why_tests_cant": "Schedules.", "anchors": ["fail2ban/server/utils.py: Utils.wait_for"]}
{"id": "C50", "title": "Multi-line failures are merged by ID", "statement": "Lines of one session are merged so that a failure is reported with the fields of all its lines; a no-failure line alone never counts as a failure; the session cache never grows beyond its limit.", "quantifier": "every interleaving of lines of several sessions", "why_tests_cant": "Interleavings.", "anchors": ["fail2ban/server/filter.py: Filter._mergeFailure, findFailure"]}
{"id": "C51", "title": "The jail's failure total counts recorded reports", "statement": "The failure total of a jail equals the number of failures recorded since start (or last set), no matter how failures were merged, cleaned up or handed out as bans.", "quantifier": "every history of reports, cleanups and bans", "why_tests_cant": "All histories.", "anchors": ["fail2ban/server/failmanager.py: FailManager.addFailure, getFailTotal"]}
{"id": "C52", "title": "A ban pass queues exactly the IDs that reached the limit", "statement": "One ban pass of a filter queues exactly the tracked IDs whose count reached maxretry, each once and in order of first report, removes exactly these from the failure list, and leaves the rest unchanged.", "quantifier": "every failure list and maxretry", "why_tests_cant": "All states.", "anchors": ["fail2ban/server/filter.py: Filter.performBan", "fail2ban/server/failmanager.py: FailManager.toBan"]}
{"id": "C53", "title": "A ban is repeated exactly where the firewall was rebuilt", "statement": "When a banned ID is reported again, exactly the actions whose environment was rebuilt since its ban are asked to repeat the ban, in order, until one fails; if none fails the ban is up to date, otherwise it stays due. If nothing was rebuilt no action is called, except a consistency check at most every 3 seconds.", "quantifier": "every jail state, ticket, clock value and every behaviour of the actions (success, failure, rebuild)", "why_tests_cant": "the epochs of actions and bans combine over arbitrary histories of rebuilds; tests check one action rebuilt once", "anchors": ["fail2ban/server/actions.py: Actions.__checkBan, Actions.__reBan", "fail2ban/server/action.py: CommandAction.invalidateBanEpoch"]}
{"id": "C54", "title": "Prolonging reaches exactly the actions that can prolong", "statement": "When a ban time was increased, every action that can prolong (and does not opt out of restored bans) is asked once, in order, whatever other actions raise, and only while the ID is still banned; nothing else changes.", "quantifier": "every jail state, ticket and behaviour of the actions", "why_tests_cant": "unbans race with the delayed prolongation; tests cover the case of one action", "anchors": ["fail2ban/server/actions.py: Actions._prolongBan", "fail2ban/server/observer.py: ObserverThread.prolongBan"]}
{"id": "C55", "title": "Merged ban information of an ID is the sum of its stored bans", "statement": "Asking for the merged bans of an ID gives one ticket with the sum of the failures of all its stored bans, the last lines (up to the configured number) in the order of time, dated by the oldest one; a remembered answer is the one that would be computed now as long as no ban was deleted.", "quantifier": "every history of database calls, every ID and jail", "why_tests_cant": "the answer is cached between calls; tests do not interleave storing, deleting, purging and asking", "anchors": ["fail2ban/server/database.py: Fail2BanDb.getBansMerged, Fail2BanDb.addBan, Fail2BanDb.delBan"]}
{"id": "C56", "title": "An address in the log is never looked up by DNS", "statement": "If the captured text is an IP address, the result is that address alone, whatever the DNS mode; with DNS off nothing is ever looked up; otherwise the name is looked up exactly as written and only when it is no address.", "quantifier": "every text, every DNS mode, every answer of the resolver", "why_tests_cant": "the recognition of an address is a regular expression followed by a parser; tests try a few texts", "anchors": ["fail2ban/server/ipdns.py: DNSUtils.textToIp, IPAddr.searchIP"]}
{"id": "C57", "title": "A multi-line match takes exactly the lines it touches", "statement": "With several buffered lines, a match splits the buffer into the lines it took and the lines that stay, keeping the order of both: it takes every line it touches except those it explicitly skipped, and nothing is lost, duplicated or altered.", "quantifier": "every buffer of lines, every position of the match and of the skipped parts, every regular expression", "why_tests_cant": "the split is computed from character positions and newline counts; tests use short buffers", "anchors": ["fail2ban/server/failregex.py: Regex.search, Regex.getMatchedTupleLines, Regex.getUnmatchedTupleLines, Regex.getSkippedLines"]}
{"id": "C58", "title": "A ban needs as many found failures as maxretry", "statement": "Whatever lines a filter reads, what its failure list records is exactly the sequence of failures announced as found (ID and time), in that order; so an ID is handed out for a ban only after at least maxretry of them were found for it.", "quantifier": "every configuration, every sequence of lines, administrator attempts and ban passes", "why_tests_cant": "the lines, the session cache, the ignore list and the failure list interact over whole histories", "anchors": ["fail2ban/server/filter.py: Filter.processLineAndAdd, Filter.performBan, FileFilter", "fail2ban/server/failmanager.py: FailManager.addFailure"]}
{"id": "C59", "title": "An ignored line yields no failure, otherwise the first matching expression decides", "statement": "A line that one of the ignoreregex matches yields no failure whatever the failregex are; of the failregex the first that matches the line (and names a session or an ID) decides, and exactly those whom it names are found; a line that no failregex matches yields none.", "quantifier": "every line, every list of expressions", "why_tests_cant": "the order of expressions and every combination of matches cannot be enumerated", "anchors": ["fail2ban/server/filter.py: Filter.findFailure, Filter.ignoreLine"]}
{"id": "C60", "title": "What a filter keeps is bounded, and it gives up only after many errors", "statement": "The line buffer never holds more than maxlines lines and the session memory never more than 100 sessions; a filter goes idle because of errors only after at least 100 lines whose processing failed.", "quantifier": "every configuration with proper expressions, every sequence of lines and commands", "why_tests_cant": "only a proof covers buffers after arbitrarily long logs", "anchors": ["fail2ban/server/filter.py: Filter.findFailure, Filter.commonError, Filter.processLineAndAdd"]}
{"id": "C61", "title": "Banning and unbanning by command has exactly the effect asked for", "statement": "Unbanning a list of IDs removes in every jail exactly the bans of these IDs, or, for an ID that is not banned itself, the bans it covers as a subnet; unbanning all removes all; the answer is the number removed. Banning adds exactly the IDs given. The query for bans tells exactly the jails an ID is banned in. Nothing else changes.", "quantifier": "every state of a server with any jails and bans, every list of IDs, and any answers to whether an address is in a subnet", "why_tests_cant": "sets of bans over all jails and all lists of IDs", "anchors": ["fail2ban/server/server.py: Server.setUnbanIP, Server.setBanIP, Server.banned", "fail2ban/server/transmitter.py: Transmitter.__commandHandler", "fail2ban/server/actions.py: Actions.addBannedIP, Actions.removeBannedIP"]}
{"id": "C62", "title": "A setting changes what it names and nothing else", "statement": "A setting of a jail that is accepted is in force afterwards and is what is answered when asked for; log files, expressions and ignored addresses are added or removed exactly as told, in order; a new jail that is started runs, a jail that is stopped is gone; nothing else in this jail or any other changes.", "quantifier": "every state of the server, every jail and value, any answer to whether a value is acceptable", "why_tests_cant": "frame conditions over all settings and states", "anchors": ["fail2ban/server/transmitter.py: Transmitter.__commandSet, Transmitter.__commandGet", "fail2ban/server/server.py: Server.startJail, Server.stopJail, Server.addLogPath, Server.addFailRegex", "fail2ban/server/filter.py: Filter.addFailRegex, Filter.delFailRegex, FileFilter.addLogPath"]}
{"id": "C63", "title": "Which template dates a line", "statement": "A date is found in a line if any template of the jail finds one. The template that found the last date is asked first, and keeps the line if its date stands at the same place between the same signs (or it is bound to the begin or end of the line, or is the only one); else the templates are asked in order, and the first answer that needs no comparison wins, else the one furthest to the left. The search fails with an error only if the match is the empty end of the line.", "quantifier": "every history of a detector, every line, every set of templates and any search results", "why_tests_cant": "the answer depends on the whole history of lines through order, hits and remembered positions", "anchors": ["fail2ban/server/datedetector.py: DateDetector.matchTime"]}
{"id": "C64", "title": "A date pattern is read as itself", "statement": "A date pattern of a jail is searched for by the template made from that very pattern, whatever patterns other jails used before.", "quantifier": "every pattern and every sequence of patterns before", "why_tests_cant": "templates are cached process-wide under a key made from the pattern; collisions need a second pattern", "anchors": ["fail2ban/server/datedetector.py: DateDetector.appendTemplate, _getPatternTemplate, DD_patternCache"]}
{"id": "C65", "title": "A ban at the firewall has its cause", "statement": "In every history of a jail - log lines, attempts reported by clients, the observer's looks at failures, rounds of the actions, commands and restored bans, in any interleaving and whatever the actions' calls raise - the number of times an action is asked to ban an ID, times the lowest maxretry in force, never exceeds the failures found of that ID plus what the observer added for it as a known offender, apart from one for each restored ban and each ban command. Without such a cause no action is ever asked to ban an ID. What is proved of the actions alone holds in the whole jail; the firewall of an ordinary action holds exactly the banned IDs.", "quantifier": "all histories (any length, any interleaving of the four threads), all IDs, all actions, all outcomes of the calls of actions", "why_tests_cant": "tests drive the filter, the failure manager and the actions separately, or one short scenario; the bound is about every interleaving of all of them", "anchors": ["fail2ban/server/jail.py: Jail.putFailTicket, Jail.getFailTicket", "fail2ban/server/filter.py: Filter.processLineAndAdd, Filter.performBan", "fail2ban/server/failmanager.py: FailManager", "fail2ban/server/observer.py: ObserverThread.failureFound", "fail2ban/server/actions.py: Actions.__checkBan"]}
{"id": "C66", "title": "A waiting ban is carried out", "statement": "A ticket that waits in a jail's queue is served: unless a command intervenes, after as many rounds of the actions that look at the queue as tickets wait in front of it, plus one, its ID is banned and in the firewall of every ordinary action, even if rounds raise exceptions and whatever else is read, found and queued meanwhile, provided the ban is not over by then; ten tickets are served per round if no round raises. The ban then ends no earlier than the ticket says, also if the ID was banned before.", "quantifier": "all histories before, all positions in the queue, all interleavings of log lines, failures, observer steps and rounds after, all outcomes of the calls", "why_tests_cant": "a test queues one or two tickets and runs one round; the property is about any queue, any faults and anything happening in between", "anchors": ["fail2ban/server/actions.py: Actions.run, Actions.__checkBan, Actions.__checkUnBan", "fail2ban/server/jail.py: Jail.getFailTicket", "fail2ban/server/banmanager.py: BanManager.addBanTicket, BanManager.unBanList"]}
{"id": "C67", "title": "Bans survive restarts and crashes", "statement": "After any history of a jail - bans by failures and by command, unbans, expiry, the observer storing bans later in its own thread, use of the database by other jails, purges, crashes and restarts, whatever the actions' commands do - a restart brings back exactly the bans that were in force and still run, each once, with the same beginning and the ban time the settings allow; a ban the observer has looked at stays in force over any number of further restarts until it ends or somebody lifts it. The situations in which this fails (unban before the ban is stored, unban while the restored ban waits, a running ban made longer, crash before the ban is stored) are shown with a history each.", "quantifier": "all histories of these steps with a clock that does not go back, all settings of the jail and the database, all outcomes of the actions' commands, any place of the restart", "why_tests_cant": "a test restarts once after one or two bans; the property is about any interleaving of the actions' thread, the observer's thread, commands and crashes", "anchors": ["fail2ban/server/jail.py: Jail.restoreCurrentBans, Jail.putFailTicket", "fail2ban/server/observer.py: ObserverThread.banFound", "fail2ban/server/actions.py: Actions.__checkBan, Actions.removeBannedIP", "fail2ban/server/database.py: Fail2BanDb.addBan, delBan, getCurrentBans"]}
{"id": "C68", "title": "Options in brackets are read as written", "statement": "A name with options in brackets, as in filter = sshd[mode=aggressive, x='...'][y=...], is accepted exactly if it is a name followed by groups of options separated by commas, where a value is quoted or has no comma and no closing bracket; then every option has the value given last, without blanks at its ends, and values in quotes come back whatever else is in them. Everything else is an error and not read in part.", "quantifier": "all texts, all names and values", "why_tests_cant": "a test tries some texts; the property is about every text, also wrong ones, and about any characters in quotes", "anchors": ["fail2ban/helpers.py: extractOptions, OPTION_CRE, OPTION_EXTRACT_CRE"]}
{"id": "C69", "title": "A list of words is split at blanks and commas only", "statement": "A list of addresses or words gives exactly the words between runs of blanks and commas, in order and none of them empty; with comments, exactly the words in front of the comment of each line, where a comment begins with # or ; at the beginning of the line or behind a blank.", "quantifier": "all texts", "why_tests_cant": "a test tries some lists; the property is about all texts including empty items, leading and trailing separators and comment signs inside of words", "anchors": ["fail2ban/helpers.py: splitwords, removeComments"]}
{"id": "C70", "title": "A list of actions gives exactly these actions", "statement": "An action setting that lists actions, each a name possibly followed by options in brackets, separated by blanks or new lines, is read as exactly these actions in this order, each with exactly its options, also if options contain blanks, new lines, commas or, in quotes, brackets.", "quantifier": "all lists of actions, all options and separators", "why_tests_cant": "a test reads a handful of settings; the property is about any number of actions and any characters in quoted values", "anchors": ["fail2ban/helpers.py: splitWithOptions, OPTION_SPLIT_CRE", "fail2ban/client/jailreader.py: JailReader.getOptions"]}
{"id": "C71", "title": "The commands for a jail say what its configuration says", "statement": "The commands that configure a jail first add it with its backend; then every setting of the jail's section is set to exactly the value there, every line of its regular expressions, every journal match and every address to ignore is added exactly once and in order, exactly the existing files every line of logpath stands for are added with their position, the actions are added in their order with exactly their options, and nothing else is sent. A log file is added only when everything but the actions is set; a regular expression only when the options it depends on are set.", "quantifier": "all configurations, that is all values of all options, all filters and actions, all files that exist", "why_tests_cant": "a test compares the commands of a few jails; the property is about any combination of options, of empty and multi-line values, and about the order of the commands", "anchors": ["fail2ban/client/jailreader.py: JailReader.convert", "fail2ban/client/filterreader.py: FilterReader._fillStream, convert", "fail2ban/client/actionreader.py: ActionReader.convert"]}
{"id": "C72", "title": "Precedence of a filter's options", "statement": "For each option of a filter the value that reaches the server is, in this order, the parameter filter[option=value] of the jail, the value in the filter's section [Init], the jail's own option and the value in the filter's section [Definition]; for the date pattern the jail's own option comes first. Regular expressions of the jail replace those of [Definition]. The section [Definition] is interpolated with parameters first, then [Init], then the jail's options.", "quantifier": "all filters, all jails, all combinations of places where an option is given", "why_tests_cant": "there are many combinations of places for every option; tests cover a few of them", "anchors": ["fail2ban/client/configreader.py: DefinitionInitConfigReader.getOptions, getCombined", "fail2ban/client/jailreader.py: JailReader.getOptions", "fail2ban/client/filterreader.py: FilterReader.convert"]}
{"id": "C73", "title": "Jails do not disturb each other", "statement": "The commands for all jails are those of each enabled jail, in order, and then one start for every jail without an error. A jail that is not enabled gives nothing; one with a wrong filter or action, or one to be skipped because of missing log files, gives one error and no other command, and the commands of the other jails are not changed by it. Reading succeeds if no jail is wrong, or, when wrong jails are to be ignored, if some jail is good.", "quantifier": "all lists of jails, all kinds of errors in them", "why_tests_cant": "tests use a few jails with one error; the property is about any number of jails and any mixture of errors", "anchors": ["fail2ban/client/jailsreader.py: JailsReader.getOptions, convert", "fail2ban/client/jailreader.py: JailReader.getOptions, convert"]}
{"id": "C74", "title": "Options are read by their kind", "statement": "Every option that is not given beforehand has the value written in the file, as a text, a number or a truth value according to its kind; its default if it is missing or not of its kind; no other option is set. Reading fails only if the section must exist and does not, or on an error other than a missing option or a wrong value.", "quantifier": "all sections, all lists of options, all values", "why_tests_cant": "a test reads a few options; the property is about every option list and every text as a value", "anchors": ["fail2ban/client/configreader.py: ConfigReaderUnshared.getOptions, CONVERTER", "fail2ban/helpers.py: _as_bool", "fail2ban/client/jailreader.py: JailReader.getOptions"]}
{"id": "C75", "title": "The actions of a jail are those of its list", "statement": "A jail has exactly the actions in its list, in order: a Python action for a name that ends with .py, a command action otherwise, with the name that is given or made from the file's and the jail's name, with the options of its file overridden by its parameters. Two actions of the same file get the same name exactly if they are given the same name or one's name is that of the jail, a dash and the other's.", "quantifier": "all lists of actions, all names, files and parameters", "why_tests_cant": "a test names a few actions; whether two names ever collide is a question about all pairs of names", "anchors": ["fail2ban/client/actionreader.py: ActionReader.__init__", "fail2ban/client/jailreader.py: JailReader.getOptions", "fail2ban/client/configreader.py: DefinitionInitConfigReader.getOptions"]}
{"id": "C76", "title": "A log followed with inotify loses no line", "statement": "A jail that follows its logs with inotify has read every line of the file at the path of a log, whenever its thread has come to rest and waits neither for that log nor for its directory: however the file was written, rotated, removed and made anew, whenever its directory was removed or moved and made anew, in whatever order this happened relative to the work of the thread.", "quantifier": "all histories of operations on files and directories, of events and of steps of the thread, with file operations between any two steps", "why_tests_cant": "a test rotates a log a few times and waits; the property is about every interleaving of file operations with the steps of the thread", "anchors": ["fail2ban/server/filterpyinotify.py: FilterPyinotify.callback, _checkPending, _refreshWatcher, _addFileWatcher, _addDirWatcher, _process_file"]}
{"id": "C77", "title": "A log followed with inotify is caught up with", "statement": "From every state that can be reached, if no more happens to the files, the thread comes to rest; and after one check at a time when everything that is waited for is due, and what follows from it, every log whose file is there is read to its end. The logs stay the same.", "quantifier": "all reachable states, at any point of the work of the thread", "why_tests_cant": "a test waits for some seconds after one operation; that the thread always comes to rest, from any state, is a statement about all of them", "anchors": ["fail2ban/server/filterpyinotify.py: FilterPyinotify.callback, _checkPending, run"]}
{"id": "C78", "title": "What is missing is looked for at growing intervals", "statement": "A missing log or directory is looked for first after 200 ms, then at intervals that are doubled each time it is still missing, until they exceed a minute, and not before; it goes on as soon as it is found. A check changes nothing else.", "quantifier": "all histories, all times of checks", "why_tests_cant": "tests look for one file a few times; the property is about every sequence of times and any number of missing paths", "anchors": ["fail2ban/server/filterpyinotify.py: FilterPyinotify._addPending, _checkPending", "fail2ban/server/utils.py: Utils.DEFAULT_SLEEP_INTERVAL"]}
{"id": "C79", "title": "Only the logs of the jail are watched and read", "statement": "Every watched file is that of a log of the jail and is watched once; every watched directory is that of a log, if no log is in a directory below that of another. Removing a log ends its watch and its waiting, and leaves the watches and the waiting of every other log as they are. Lines are read only from files at the path of a log.", "quantifier": "all histories of adding and removing logs, of operations on files and of steps of the thread", "why_tests_cant": "a test adds and removes a few logs; the property is about every history, including removals while files are missing or being rotated", "anchors": ["fail2ban/server/filterpyinotify.py: FilterPyinotify._addLogPath, _delLogPath, _delFileWatcher, _delDirWatcher, _process_file"]}
{"id": "C80", "title": "Tags in an expression stand for what they are documented to stand for", "statement": "However a failregex is composed of plain text, standard tags (HOST, ADDR, IP4, IP6, DNS, CIDR, SUBNET, SKIPLINES, the short F- tags) and groups between <F-NAME> and </F-NAME>, nested at will, the expression that is used has every tag replaced, in its place, by its expression or named group, and the text in between unchanged. HOST includes host names unless usedns is no. Text that only looks like a tag is kept.", "quantifier": "all expressions composed of plain text, standard tags and properly nested groups, all settings of usedns", "why_tests_cant": "tests resolve some thirty expressions; the property is about every composition, where a tag could change the meaning of what stands around it", "anchors": ["fail2ban/server/failregex.py: Regex._resolveHostTag, FTAG_CRE, FCUSTNAME_CRE, RH4TAG, mapTag2Opt"]}
{"id": "C81", "title": "The value of a name after a match", "statement": "After a match, the value of a name is what its own group matched, if that is not empty, else what the first of its alternatives (F-ALT_NAME, F-ALT_NAME_1, ...) that is not empty matched. If there are components (F-TUPLE_NAME...), the value is the tuple of this value and all components in order. All other names keep what they matched.", "quantifier": "all sets of group names, all matches (which groups took part and what they matched)", "why_tests_cant": "tests use two or three parts; the property is about any number of parts in any order, present, empty or missing", "anchors": ["fail2ban/server/failregex.py: Regex.__init__, Regex._getGroupsWithAlt, COMPLNAME_CRE"]}
{"id": "C82", "title": "Only expressions that can identify a failure are accepted, and the prefix's groups are completed by the failregex's", "statement": "A failregex is accepted exactly if it is not blank, compiles, and it or the prefix expression has one of the groups fid, ip4, ip6, dns, mlfid. A match is identified by the first of fid, ip4, ip6, dns that took part. The data of a failure has of each name the value of the failregex if it has such a group, else that of the prefix expression.", "quantifier": "all expressions, all prefix expressions, all matches", "why_tests_cant": "the cases cannot be enumerated: any combination of groups may be present and take part", "anchors": ["fail2ban/server/failregex.py: FailRegex.__init__, FailRegex.getFailID", "fail2ban/server/filter.py: Filter.findFailure"]}
{"id": "C83", "title": "Flags at the beginning of a group hold for that group only", "statement": "Flags written as ((?i)...) or (?:(?i)...) are turned into flags of this group, at any place of an expression and any number of times; nothing else in the expression is changed.", "quantifier": "all texts", "why_tests_cant": "the rewriting works on the text of the expression; tests try a few expressions, the property is about all texts, including overlapping look-alikes", "anchors": ["fail2ban/server/failregex.py: R_GLOB2LOCFLAGS, Regex.__init__"]}
{"id": "C84", "title": "The outcome of a command is the outcome of that command", "statement": "A command that ends by itself within its timeout gets no signal; it counts as succeeded exactly if its exit status is one of those that mean success. Its end is noticed within milliseconds. If its output fits into a pipe it runs as if it was read, and all its output is returned or logged. An ignore command that ends with status 0 means ignored, any other status does not.", "quantifier": "all commands (any process tree with any output, duration, status and behaviour on signals), all timeouts, log levels, sets of success codes", "why_tests_cant": "tests run a few shell commands; duration, output and processes left behind of real commands vary without limit, and depend on time", "anchors": ["fail2ban/server/utils.py: Utils.executeCmd, Utils.wait_for", "fail2ban/server/action.py: CommandAction.executeCmd", "fail2ban/server/filter.py: Filter._inIgnoreIPList"]}
{"id": "C85", "title": "A command that takes too long is stopped and does not stop the others", "statement": "No signal is sent before the timeout. A command that has not ended soon after it gets SIGTERM, and 0.2 seconds later SIGKILL unless its whole process group has gone; afterwards nobody of the group is left, and the execution is over 0.4 seconds after the SIGTERM if only the group holds its output. As long as no command leaves somebody behind that holds its output, commands waiting for each other are executed after the sum of the timeouts and 2.4 seconds for each.", "quantifier": "all commands, timeouts, log levels, sequences of commands of all jails", "why_tests_cant": "the times when a command ends, or ends because of a signal, cannot be enumerated; a test waits for one", "anchors": ["fail2ban/server/utils.py: Utils.executeCmd", "fail2ban/server/action.py: CommandAction.executeCmd, _cmd_lock"]}
{"id": "C86", "title": "The journal shows what the journal matches choose", "statement": "After any history of adding and deleting journal matches, also with errors, the entries shown are exactly those that meet one of the listed matches (for every field named, one of its terms), all when there are none. Adding lists the alternatives between plus signs behind the others, or, if one term is refused, changes nothing. Deleting takes away all, or the one named, or is an error and changes nothing.", "quantifier": "all sequences of adding and deleting matches, all words, all entries, every set of terms the journal refuses", "why_tests_cant": "the state of the reader is a product of the whole history of calls and errors, of which tests try a few", "anchors": ["fail2ban/server/filtersystemd.py: FilterSystemd.addJournalMatch, delJournalMatch, resetJournalMatches, _addJournalMatches"]}
{"id": "C87", "title": "The journal is followed without loss and without repetition", "statement": "While the matches stay the same every entry is read at most once, in the order of the journal, and only if it is selected and comes after the position of the start. If nothing is removed, what was read and what is unread are exactly the selected entries after that position. If files are rotated away no entry is lost as long as the entry of the position is there when the journal is invalidated. The thread alone gets through n unread entries in 3n+2 steps. Entries that cannot be made a line are passed over and counted; at the hundredth error the jail goes idle.", "quantifier": "all interleavings of the thread with new and removed entries, clock, idle, stop, what waiting signals, errors of reading and formatting; all journals", "why_tests_cant": "needs all interleavings of reading with rotation and new entries; tests use a few entries and no rotation", "anchors": ["fail2ban/server/filtersystemd.py: FilterSystemd.run", "fail2ban/server/filter.py: Filter.commonError"]}
{"id": "C88", "title": "A restart continues in the journal where the stop was", "statement": "The position in the database is the one of before or the time of an entry that was handed over; after a stop it is that of the last one; it is stored at the end of a batch unless one was stored less than ten seconds ago. After a start unread is exactly what is selected and later than the position and than the find time allows. An entry in the find time that was not read before a stop is unread after the next start, if it is later than the entries read before it.", "quantifier": "all histories before the stop, all journals, all that happens between the stop and the start and during the start", "why_tests_cant": "what is stored when depends on when batches end, on the clock and on the moment of the stop", "anchors": ["fail2ban/server/filtersystemd.py: FilterSystemd.run, _updateDBPending, onStop, seekToTime, getJrnEntTime", "fail2ban/server/database.py: Fail2BanDb.getJournalPos, updateJournal"]}
{"id": "C89", "title": "Old entries of the journal do not count as new ones", "statement": "Entries that were in the journal at the start and, like all before them, more than a second old are handed over before the operation mode begins, so that they count with their own time and not at all if older than the find time. The operation mode begins at the end of the journal or with an entry that is at most one second old, and then stays.", "quantifier": "all backlogs, all interleavings with new entries, rotation and the clock", "why_tests_cant": "depends on the order in which new entries arrive while the old ones are read", "anchors": ["fail2ban/server/filtersystemd.py: FilterSystemd.run", "fail2ban/server/filter.py: Filter.inOperationMode, Filter.processLine"]}
{"id": "C90", "title": "An entry of the journal is one line, ended by its message", "statement": "The line made of an entry has no newline. It is host, identifier with the process number in brackets, colon, message; the command name and _PID stand in for a missing identifier and number; whatever the message is, it is the whole end of the line and does not change what is before it.", "quantifier": "all values of the fields of an entry", "why_tests_cant": "fields come from arbitrary programs; tests show some messages", "anchors": ["fail2ban/server/filtersystemd.py: FilterSystemd.formatJournalEntry"]}
{"id": "C91", "title": "What the configuration says is what the started server has", "statement": "If fail2ban-client start succeeds, the server has exactly the jails that are enabled and valid in the configuration, all running, without bans, each with the backend, regular expressions, ignored addresses, log files and settings the configuration says and no others; the settings of the server are sent first, with the command line before fail2ban.conf before the defaults, and no jail is started before all are set up. A valid configuration in words the server knows is accepted. If start fails, no jail is started.", "quantifier": "all configurations, command lines, states of the machine and answers of the server", "why_tests_cant": "configuration reader, client, protocol and server are tested one by one with sample files; that what they do together is what the files say, for every file, is not", "anchors": ["fail2ban/client/fail2banclient.py: Fail2banClient.__startServer", "fail2ban/client/configurator.py: Configurator", "fail2ban/client/fail2banreader.py: Fail2banReader", "fail2ban/server/transmitter.py: Transmitter.__commandHandler"]}
{"id": "C92", "title": "A reload makes the jails what the configuration says", "statement": "fail2ban-client reload of one jail or all, with a configuration a new server would take, succeeds in every state in which the jails concerned run: of these exactly the enabled ones are there afterwards and run, with the lists and values of the configuration; a jail with the same backend is kept with its bans (unless --unban or --restart), the others are new; other jails are untouched; a second reload changes nothing.", "quantifier": "all histories of the server, all configurations, all options of reload", "why_tests_cant": "depends on the whole history of the server and on every pair of old and new configuration", "anchors": ["fail2ban/client/fail2banclient.py: Fail2banClient.__processCommand", "fail2ban/server/server.py: Server.reloadJails", "fail2ban/server/transmitter.py: Transmitter.__commandHandler"]}
{"id": "C93", "title": "What fail2ban-client does for start, restart, reload and other commands", "statement": "start with a running server, an invalid configuration, a left-over socket without force, or a server that does not come up changes nothing and fails; so does reload with wrong words, without a server or with an invalid configuration. restart stops the server and starts a new one only if the old one ended; restart of a jail is a reload that restarts it. Everything else is sent as it is. The client succeeds exactly if the server answers without an error.", "quantifier": "all command lines, all configurations, all states of the server", "why_tests_cant": "tests run some command lines against one server", "anchors": ["fail2ban/client/fail2banclient.py: Fail2banClient.__processCommand", "fail2ban/client/fail2banclient.py: Fail2banClient.__processCmd", "fail2ban/client/fail2banclient.py: Fail2banClient.__prepareStartServer"]}
{"id": "C94", "title": "Names are resolved to what the resolver said, recently, and not asked again and again", "statement": "The addresses of a name are exactly those the system's resolver gave for this very name in one lookup less than five minutes ago; the same holds for the name of an address. A text that is an address, or any text with DNS switched off, causes no lookup. If the system tells whether it has IPv6, the same question is asked at most once in five minutes, as long as fewer than 997 questions were asked and nothing was forgotten by a reload.", "quantifier": "all answers of the resolver at all times, all histories of lookups", "why_tests_cant": "the cache joins lookups made at different times for different purposes; tests look at single lookups", "anchors": ["fail2ban/server/ipdns.py: DNSUtils.dnsToIp", "fail2ban/server/ipdns.py: DNSUtils.ipToName", "fail2ban/server/ipdns.py: DNSUtils.textToIp", "fail2ban/server/utils.py: Utils.Cache"]}
{"id": "C95", "title": "The own names and addresses are those of the host and its interfaces", "statement": "The host name and the full name are the ones the system gives, with the stated fallbacks; the own names are localhost and both of them; the own addresses are those of the interfaces and those of the own names; each was so when it was asked, and each of the layers of caches may be up to five minutes old. (Not so: the full name if the resolver knows no canonical name. Not so: that own addresses are at most five minutes old.)", "quantifier": "all answers of the system at all times, all histories of lookups", "why_tests_cant": "tests see one host with one name and do not let time pass", "anchors": ["fail2ban/server/ipdns.py: getfqdn", "fail2ban/server/ipdns.py: DNSUtils.getHostname", "fail2ban/server/ipdns.py: DNSUtils.getSelfNames", "fail2ban/server/ipdns.py: DNSUtils.getNetIntrfIPs", "fail2ban/server/ipdns.py: DNSUtils.getSelfIPs"]}
{"id": "C96", "title": "allowipv6 says if IPv6 addresses are looked up", "statement": "After a start or reload with allowipv6 yes or no, every name is looked up with IPv6 or without it, as set; without it only IPv4 addresses result. With auto it is used as found out at most five minutes ago: what the system says, else whether an interface has an IPv6 address, else whether the own names have one. (Not so: switched off in a running server it has no effect on what is already known.)", "quantifier": "all settings, all answers of the system at all times, all histories", "why_tests_cant": "the detection calls the lookup that calls the detection; tests run on one machine", "anchors": ["fail2ban/server/ipdns.py: DNSUtils.IPv6IsAllowed", "fail2ban/server/ipdns.py: DNSUtils.setIPv6IsAllowed", "fail2ban/server/ipdns.py: DNSUtils._IPv6IsSupportedBySystem", "fail2ban/server/server.py: Server.setIPv6IsAllowed"]}
{"id": "C97", "title": "In a network that does not change all answers are exact", "statement": "If the answers of the system do not change then, with an unchanged setting, every answer about names, addresses, own names, own addresses and the use of IPv6 is the exact one, whatever was asked before and however the caches were filled and emptied.", "quantifier": "all unchanging worlds, all histories of lookups, all times", "why_tests_cant": "the result must not depend on the order of the lookups; tests use a few orders", "anchors": ["fail2ban/server/ipdns.py: DNSUtils"]}
{"id": "C98", "title": "An old database is upgraded without losing bans, even if the upgrade is interrupted", "statement": "Opening a sound database of an older version gives one of the current version with the same jails, the same log positions and the same bans, in which the newest ban of each ID in each jail is the current one, and leaves the file as it was as a backup. If the process dies at any point of the upgrade, the next start completes it without losing jails, positions or bans. A ban stored by a version that kept no ban times is restored by the next start exactly if it still runs with the ban time of its jail.", "quantifier": "every content of a sound database of version 1, 2 or 3, every point between two commits at which the process dies, every backup that exists then, every jail setting and time of the restore", "why_tests_cant": "tests upgrade one or two sample files without interruption; the loss shows only if the process dies between two particular commits", "anchors": ["fail2ban/server/database.py: Fail2BanDb._connectDB, Fail2BanDb.updateDb", "fail2ban/server/jail.py: Jail.restoreCurrentBans"]}
{"id": "C99", "title": "Opening never destroys the only copy of a database", "statement": "Whatever is in the database file: opening a database of the current version changes nothing; one of a later version is refused unchanged; without a file, or with a file lacking tables, the missing tables are created and the existing ones kept; a damaged file is kept as a backup and replaced by what can be dumped from it, upgraded if needed, or else by a new database. At any point of an opening the original content is in place or in the backup.", "quantifier": "every content of the file (any version, missing tables, damaged), every result of the dump, every point at which the process dies", "why_tests_cant": "tests open a handful of sample files and cannot enumerate the interrupted states of creation and repair", "anchors": ["fail2ban/server/database.py: Fail2BanDb._connectDB, Fail2BanDb._createDb, Fail2BanDb.repairDB, Fail2BanDb.updateDb"]}
{"id": "C100", "title": "Each action gets the data of the ban, whatever other actions did with them", "statement": "The information given to the actions of one ban (address, failures, ban time, matches, merged bans of the address, counters of the jail) has for each key the value of this ban; an action that sets or deletes keys affects only itself: the following actions, other tickets and other jails see the original ones. Failing to read merged bans never fails an action: the data of the ticket are used. If no action changes anything all of them see the same values.", "quantifier": "every ticket and state of jail, database and name service at every moment, every number of actions and every sequence of readings, settings and deletions by them", "why_tests_cant": "tests use one action at a time or two with fixed operations; isolation is a property of all sequences", "anchors": ["fail2ban/server/action.py: CallingMap", "fail2ban/server/actions.py: Actions.ActionInfo"]}
{"id": "C101", "title": "Commands without a ban get their own time and family", "statement": "The commands for starting, stopping and flushing an action have no ticket; the time and the address family they see are always those of that command, whatever commands ran before.", "quantifier": "every sequence of commands of all actions of a jail and of readings by them", "why_tests_cant": "tests run one start and one stop with fixed tags", "anchors": ["fail2ban/server/action.py: CommandAction._executeOperation", "fail2ban/server/action.py: CallingMap"]}
{"id": "C102", "title": "A value is replaced by what its references mean, entirely or not at all", "statement": "The value of an option as the readers of the configuration get it is its text with every doubled percent sign made single and every reference %(name)s replaced by what the name stands for - a variable given by the caller, an option of the section, a default, the name of the section, in this order and without regard to case - again replaced in the same way, down to the tenth level. If the text is malformed, a name stands for nothing or the levels do not suffice, the result is the corresponding error, the first one in the order of the text. A missing section and a missing option are told apart from all other errors. Where no reference leads into another section, the contents of other sections do not matter.", "quantifier": "all configurations, sections, options, variables and texts of values, references nested in any way", "why_tests_cant": "Texts and the nesting of references are unbounded; tests try a few values.", "anchors": ["fail2ban/client/configparserinc.py: BasicInterpolationWithName._interpolate_some, _map_section_options", "fail2ban/client/configreader.py: ConfigReader.get"]}
{"id": "C103", "title": "References to other sections, to the defaults and to what was known before", "statement": "%(section/option)s stands for the option of that section, or for the default if the section does not have it; %(default/option)s for the default; %(known/option)s for the value that was said of the option before the last one, over all the files that were read in their order, or for the default if there was none. If there is no such section the result is an error.", "quantifier": "all sets of files with includes and local versions, sections, options and values", "why_tests_cant": "The set of files and values is unbounded and the meaning of known depends on the order in which all of them were read.", "anchors": ["fail2ban/client/configparserinc.py: _map_section_options, read, merge_section"]}
{"id": "C104", "title": "Options asked for by section and name", "statement": "Asked for an option named section/option, the configuration answers with the option of that section, of the defaults for default/option, of what was known before and otherwise of the section itself for known/option; only if there is none of these it answers with the option of exactly that name. Errors other than a missing section or option are not passed over. All other names are answered as usual.", "quantifier": "all configurations, sections, names and variables", "why_tests_cant": "The interplay of several lookups with errors in any of them; tests try single cases.", "anchors": ["fail2ban/client/configparserinc.py: get_ex", "fail2ban/client/configreader.py: getCombOption"]}
{"id": "C105", "title": "Whoever adds an event wakes the observer", "statement": "An event that is added to the observer is never left waiting while the observer sleeps: once all calls under way have returned, a sleeping observer that is neither paused nor stopping has no added event in its queue, and if it has some, its thread executes all of them in their order without any time passing, also after events that raised. As long as it is not stopped, every added event is executed or waits, once and in order. While it is paused at most one event is still executed. After a forced stop its thread ends within a bounded number of its own steps and executes at most one more event. (A stop that gives up because the queue does not get empty can lose a wake-up; this is proved as a refutation.)", "quantifier": "all interleavings of the steps of the thread with any number of threads that add, pause, resume and stop", "why_tests_cant": "A lost wake-up needs one particular interleaving of steps of several threads; tests run the common ones and hide a loss by the time-out of the sleep.", "anchors": ["fail2ban/server/observer.py: ObserverThread.run", "fail2ban/server/observer.py: ObserverThread.add", "fail2ban/server/observer.py: ObserverThread.pulse_notify", "fail2ban/server/observer.py: ObserverThread.stop", "fail2ban/server/observer.py: ObserverThread.paused"]}
{"id": "C106", "title": "Named timers and the repeated purging of the database", "statement": "Setting a timer under a name cancels the one that was set before under the same name, and no other, so that at most one timer of a name is to fire. As long as no purge of the database raised, exactly one purge is to come at any time, due within one hour, and two purges are at least one hour apart. (A purge that raises is the last one: nothing sets the timer again; this is proved as a refutation.)", "quantifier": "all histories of timers, events, passing time and changes of the database, of any length", "why_tests_cant": "The claims are about what is outstanding after any history; tests set single timers and cannot wait for hours.", "anchors": ["fail2ban/server/observer.py: ObserverThread.add_named_timer", "fail2ban/server/observer.py: ObserverThread.add_timer", "fail2ban/server/observer.py: ObserverThread.db_purge", "fail2ban/server/observer.py: ObserverThread.run"]}
{"id": "C107", "title": "A stop stops everything in order, and the process ends", "statement": "A serving server that is told to stop, by a signal or by the command, first stops to answer commands, then stops the jails, then closes the database, and removes the file of its socket, without touching other server processes. Afterwards nothing of this starts again, whatever happens, and its main thread ends after four more steps, in any interleaving with other processes. (A signal during the start is lost, and an error within a stop leaves a server that cannot be stopped by a command; these are proved as refutations.)", "quantifier": "all histories of any number of server processes, with signals, commands, errors and kills at any step", "why_tests_cant": "The order must hold at every point at which a stop can arrive, and against every interleaving with other processes; tests stop servers at a few quiet moments.", "anchors": ["fail2ban/server/server.py: Server.start", "fail2ban/server/server.py: Server.quit", "fail2ban/server/asyncserver.py: AsyncServer.start", "fail2ban/server/asyncserver.py: AsyncServer.close", "fail2ban/client/fail2banserver.py: startServerDirect"]}
{"id": "C108", "title": "The file of the socket and the PID file", "statement": "The file of a server's socket is removed or replaced only by a server that was started with force or that had made one itself; servers that are started without force, in any number, leave a serving one alone, and at most one of them serves. A server that had the paths for itself leaves neither a PID file nor a socket when it has ended, whatever signals and errors it got; without force it leaves a file that it found. (The PID file is overwritten and removed by a second start that fails, and a server that starts while another one ends can lose the file of its socket; these are proved as refutations.)", "quantifier": "all interleavings of any number of server processes with kills at any step", "why_tests_cant": "Races between the start of one process and the end of another need particular interleavings, which tests do not produce.", "anchors": ["fail2ban/server/server.py: Server.start", "fail2ban/server/asyncserver.py: AsyncServer.start", "fail2ban/server/asyncserver.py: AsyncServer.close", "fail2ban/server/asyncserver.py: AsyncServer._remove_sock"]}
{"id": "C109", "title": "Errors do not end the serving of clients", "statement": "The loop that serves clients goes on whatever errors occur, unless in some stretch the failures exceed the successes by more than a hundred and the error says that too many files are open, or more than a thousand errors are counted. Failures beyond the twentieth are not logged. (An exception without arguments ends it at once; this is proved as a refutation.)", "quantifier": "all sequences of successes and failures, of any length", "why_tests_cant": "The claim is about all unbounded sequences of outcomes; tests try short ones.", "anchors": ["fail2ban/server/asyncserver.py: loop"]}
{"id": "C110", "title": "A date is read as it was written", "statement": "If a line has a date written as the date pattern says, the pattern shows where each of its fields ends, and the date stands first, then it is found there and its parts are those that were written; the time obtained is the one that was written, in the offset of the line, of the jail, or in local time.", "quantifier": "All date patterns made of fields, characters and points, all lines, all dates, all years of the start of the process", "why_tests_cant": "Regular expressions try many ways to read a line; tests see the way of a few dates, and a field that takes a digit too few or too many shows on few days of the year only.", "anchors": ["fail2ban/server/datetemplate.py: DateTemplate.setRegex, DateTemplate.matchDate, DatePatternRegex.setRegex, DatePatternRegex.getDate", "fail2ban/server/strptime.py: timeRE, reGroupDictStrptime"]}
{"id": "C111", "title": "What is found as a date is one, and none is missed", "statement": "A date pattern finds in a line exactly a text written as it says: each field is a value in its range in one of the usual ways of writing it, neither the beginning nor the end cuts a word or a number unless the pattern says so; if nothing is found there is no such text in the line, and if something is found none begins before it.", "quantifier": "All date patterns made of fields, characters and points, all lines", "why_tests_cant": "That nothing else is found and nothing is missed is a statement about all lines; tests have a few that match and a few that do not.", "anchors": ["fail2ban/server/datetemplate.py: DateTemplate.setRegex, DateTemplate.matchDate", "fail2ban/server/strptime.py: timeRE, _updateTimeRE"]}
{"id": "C112", "title": "A date pattern means what its text says", "statement": "The text of a pattern, with its marks for the beginning and the end, is read as the fields and characters in it in their order; the marks alone say where a date may begin and end; upper and lower case are the same if there are names in it.", "quantifier": "All sequences of fields, characters and points, all marks", "why_tests_cant": "The text goes through several substitutions that look at each other's results; tests have a few dozen patterns.", "anchors": ["fail2ban/server/datetemplate.py: DatePatternRegex.setRegex, DateTemplate.setRegex, RE_ALPHA_PATTERN, RE_NO_WRD_BOUND_BEG, RE_NO_WRD_BOUND_END, RE_DEL_WRD_BOUNDS"]}
{"id": "C113", "title": "The numbers fail2ban-regex gives add up", "statement": "fail2ban-regex looks at every line that is neither empty nor a comment, and the lines it reports as matched, ignored and missed add up to these; with filters for single lines each number is that of the lines of which it was said.", "quantifier": "All filters, all options, all lists of lines", "why_tests_cant": "The numbers are kept in several places and corrected later for matches over several lines; tests look at some log files.", "anchors": ["fail2ban/client/fail2banregex.py: Fail2banRegex.process, Fail2banRegex.testRegex, LineStats"]}
{"id": "C114", "title": "The lines fail2ban-regex prints are all of their kind", "statement": "If fail2ban-regex prints missed, ignored or matched lines, these are all lines of this kind in their order; they are printed if there are fewer than the limit or if one asked for all, unless one asked for none.", "quantifier": "All filters for single lines, all options, all lists of lines", "why_tests_cant": "The lists are cut while lines are read and judged at the end, at different limits; whether they agree depends on all numbers of lines.", "anchors": ["fail2ban/client/fail2banregex.py: Fail2banRegex.process, Fail2banRegex.printLines, Fail2banRegex.printStats"]}
{"id": "C115", "title": "What fail2ban-regex says of a line is what the server does with it", "statement": "For a line with a date that is not too old: if fail2ban-regex says that it is missed or ignored, the server finds no failure in it; if it says that it is matched, the server finds a failure in it, by the first of the expressions that are counted for it.", "quantifier": "All filters for single lines without sessions, all lines, all states of the tool and of the server", "why_tests_cant": "The tool uses the code of the server with other settings, which take other branches; that the two agree is a statement about pairs of executions.", "anchors": ["fail2ban/client/fail2banregex.py: Fail2banRegex.testRegex", "fail2ban/server/filter.py: Filter.findFailure, Filter.processLine, Filter._ignoreLine"]}
{"id": "C116", "title": "Messages of the server go to the target it tells of", "statement": "After any history of settings in which nobody asked for INHERITED, each message at or above the level is written exactly once, to the place getLogTarget tells of; setting another target with success makes it the place of the next message, a target that cannot be had is refused and leaves everything as before.", "quantifier": "all histories of settings, messages, flushes and renames of files, from any handlers the process has; all states of files and sockets", "why_tests_cant": "the handlers depend on the whole history of settings and on what the system answered each time", "anchors": ["fail2ban/server/server.py: setLogTarget, getLogTarget, setSyslogSocket"]}
{"id": "C117", "title": "Rotation loses no message of the server", "statement": "When the log file is moved away, messages go on to the file moved away, until flushLogs, after which they go to a new file of the old name; no message is lost or written twice.", "quantifier": "all histories before, all names of the moved file, all messages", "why_tests_cant": "rotation falls between any two messages, and the file the handler holds depends on the history", "anchors": ["fail2ban/server/server.py: flushLogs, setLogTarget"]}
{"id": "C118", "title": "The log level told of is in force", "statement": "After any history a message is written if and only if it is at or above the level getLogLevel tells of; a level that is not known is refused and changes nothing; nothing but setLogLevel changes the level.", "quantifier": "all histories, all names of levels and all messages", "why_tests_cant": "setLogLevel returns early for the level it believes is set, so that the claim rests on the history", "anchors": ["fail2ban/server/server.py: setLogLevel, getLogLevel"]}
{"id": "C119", "title": "Which words of the command line are options and which are the command", "statement": "Words before the command are read as options in the documented ways of writing them (letters joined, values joined or in the next word, long names in full or unambiguously shortened); all words from the first that is no option, or after --, are the command and are passed on unchanged, whatever they look like; anything else is an error and nothing is done.", "quantifier": "all lists of words", "why_tests_cant": "there is no bound on the number of words, on their text and on the ways options combine", "anchors": ["fail2ban/client/fail2bancmdline.py: initCmdLine"]}
{"id": "C120", "title": "What the options of the command line mean", "statement": "When the client goes on to the command, each setting has the value given last on the command line, in any spelling; the settings of socket, PID file and logging not given there are those of the configuration in the directory given last, the other ones have their defaults. Asking for help or the version ends the program with success and runs nothing.", "quantifier": "all command lines and all configurations", "why_tests_cant": "options given twice, in different spellings and in any order with others", "anchors": ["fail2ban/client/fail2bancmdline.py: __getCmdLineOptions, initCmdLine, CONFIG_PARAMS"]}
{"id": "C121", "title": "Testing or dumping the configuration runs no command by accident", "statement": "With a dump asked for and no test the command is never run; with a test asked for it is run only if there is one and the configuration is good, and without a command success means the configuration is good; with a log level that is not known nothing is run.", "quantifier": "all command lines and all configurations", "why_tests_cant": "the options can be combined without bound and their order must not matter", "anchors": ["fail2ban/client/fail2bancmdline.py: initCmdLine"]}
{"id": "C122", "title": "What fail2ban-client prints is what the server answered", "statement": "The lists of log files, ignored addresses and expressions are printed with one line for each entry, in their order, expressions with the number by which they are deleted; banned addresses can be read back from what is printed; the state of a jail or of the server has one line for each part and each item, with its value, none missing and none invented.", "quantifier": "all answers of the server whose entries have no line break", "why_tests_cant": "lists and states have any length, and the last entry of each is printed by other code than the ones before", "anchors": ["fail2ban/client/beautifier.py: Beautifier.beautify"]}
