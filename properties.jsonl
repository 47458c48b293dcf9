{"id": "C01", "title": "Dict is a map", "statement": "After any sequence of Set/Get/Find/Delete/GetRandomKey calls on a Dict, Get(k) returns the value of the latest Set(k,..) not followed by a successful Delete(k), and nothing otherwise; Set reports true exactly when k was absent; Delete succeeds exactly when k was present (ErrNotInitialized on a never-written dict, ErrKeyNotFound otherwise). No call panics.", "quantifier": "every sequence of operations, every key and value, every hash function (every collision pattern), at every stage of incremental rehashing", "why_tests_cant": "The result depends on which of two tables a key is in at each stage of the incremental rehash and on hash collisions; tests sample a handful of keys.", "anchors": ["datastruct/dict.go:Dict.Set,Get,Find,Delete,keyIndex,expandIfNeeded,expand,rehash,rehashStep"]}
{"id": "C02", "title": "Dict.Size counts distinct live keys", "statement": "At all times Size() equals the number of distinct keys currently in the dict, including while a rehash is under way.", "quantifier": "every reachable dict state", "why_tests_cant": "used counters of two tables are updated on five different paths; a drift shows only after particular interleavings with rehashing.", "anchors": ["datastruct/dict.go:Dict.Size,Set,Delete,rehash"]}
{"id": "C03", "title": "Dict iteration visits every entry exactly once", "statement": "Iterating from a fresh iterator yields each (key,value) present exactly once, in any rehash state, even when the entry just returned is deleted before the next call; while an iterator is open no entry moves between buckets, and Release restores the previous rehash permission.", "quantifier": "every reachable dict, every choice of returned entries that are deleted during the iteration", "why_tests_cant": "Whether the iteration spans both tables correctly depends on the rehash position.", "anchors": ["datastruct/dict.go:DictIterator.Next,Release", "server/commandkey.go:keysCommand"]}
{"id": "C04", "title": "GetRandomKey returns a present key and can return any of them", "statement": "On a non-empty dict GetRandomKey, when it returns, returns an entry that is present; on an empty or uninitialised dict it returns nil; every present entry is returned for some outcome of the random source.", "quantifier": "every reachable dict, every sequence of random numbers", "why_tests_cant": "Random; a test sees only one outcome per run.", "anchors": ["datastruct/dict.go:Dict.GetRandomKey"]}
{"id": "C05", "title": "Table sizes are powers of two and bucket indexes stay in range", "statement": "GetNextPower(n) is the least power of two that is >= max(n,4) for every n up to 2^62 and MaxInt64 above; every table ever allocated has a power-of-two size of at least 4 and every bucket index computed from any 64-bit hash, negative ones included, lies inside the table.", "quantifier": "every int64 argument; every reachable dict and every int64 hash", "why_tests_cant": "bit-twiddling over the full int64 range.", "anchors": ["datastruct/dict.go:GetNextPower,expand,keyIndex"]}
{"id": "C06", "title": "Incremental rehashing makes progress and terminates", "statement": "While no iterator is open, each Set/Get/Find/Delete during a rehash migrates at least one non-empty bucket or completes the rehash, and loses no entry; after at most (old size + 1) further such operations the rehash is over. While an iterator is open nothing migrates.", "quantifier": "every reachable rehashing dict and every following operation sequence", "why_tests_cant": "Needs a termination measure over all states.", "anchors": ["datastruct/dict.go:Dict.rehash,rehashStep"]}
{"id": "C07", "title": "Set algebra", "statement": "Set.Union/Intersect/Difference return a set whose members are exactly the union/intersection/difference of the operands' members, leave the members of both operands unchanged, and are correct when both operands are the same object.", "quantifier": "every two reachable sets", "why_tests_cant": "Operands may be mid-rehash and aliased.", "anchors": ["datastruct/set.go:Set.Union,Intersect,Difference,Contains,Add"]}
{"id": "C08", "title": "Quicklist end operations behave like a deque", "statement": "PushBack appends, PushFront prepends, PopFront removes and returns the first element, Len is the number of elements, for lists of any length spanning any number of pages; none of these panics.", "quantifier": "every sequence of these operations", "why_tests_cant": "Page splits occur every 512/1024 elements and interleave with removals.", "anchors": ["datastruct/quicklist.go:Quicklist.PushBack,PushFront,PopFront,Insert,Remove"]}
{"id": "C09", "title": "Quicklist positional access is correct for every index", "statement": "Get(i), Remove(i), Insert(i,v), PopBack() act on the i-th (last) element of the list for every valid index, and never panic.", "quantifier": "every reachable quicklist and every index", "why_tests_cant": "The traversal direction and page offset depend on the page layout, i.e. on the whole history.", "anchors": ["datastruct/quicklist.go:Quicklist.get,Get,Remove,Insert,PopBack"]}
{"id": "C10", "title": "Quicklist pages stay within bounds", "statement": "No page ever holds more than 1024 elements, no page is empty, and Len() equals the total number of stored elements.", "quantifier": "every sequence of operations that does not panic", "why_tests_cant": "Invariant over all histories.", "anchors": ["datastruct/quicklist.go:Quicklist.Insert,Remove,PushBack"]}
{"id": "C11", "title": "Quicklist.Range and iteration", "statement": "Iterating yields the elements in list order, each exactly once, and moving the iterator back and forth yields the element at the position reached; Range(start,stop) returns the elements from start to stop inclusive (negative indexes counted from the end, stop clipped to the end) when start addresses the front half of the list; Find returns the first index of an equal element or -1.", "quantifier": "every reachable quicklist, every start/stop", "why_tests_cant": "Crosses page boundaries.", "anchors": ["datastruct/quicklist.go:Quicklist.Range,Find,QuicklistIterator.Next,Prev"]}
{"id": "C12", "title": "Skiplist insert/delete keep the order and the rank bookkeeping", "statement": "After any sequence of Insert (of absent elements) and Delete with non-NaN scores, whatever levels the random source picks, walking the list forward yields the elements ordered by (score, member), walking backward from the tail yields the reverse, and Length is their number.", "quantifier": "every history, every sequence of random levels", "why_tests_cant": "The pointer structure depends on random levels.", "anchors": ["datastruct/skiplist.go:Skiplist.Insert,Delete,deleteNode,randomLevel"]}
{"id": "C13", "title": "Skiplist rank queries are exact", "statement": "GetElementByRank(r) returns the r-th smallest element (nil beyond the end); GetRank(score, member) returns the 1-based position of a present element with non-empty member; RangeByRank(start,end) returns exactly the elements at those positions in order.", "quantifier": "every reachable skiplist, every rank", "why_tests_cant": "Spans at 32 levels must all be consistent.", "anchors": ["datastruct/skiplist.go:Skiplist.GetRank,GetElementByRank,RangeByRank"]}
{"id": "C14", "title": "Skiplist score queries are exact", "statement": "RangeByScore(min,max,limit,reverse), Count(min,max), GetFirstInScoreRange and GetLastInScoreRange return exactly the elements with min<=score<=max (the first `limit` of them, reversed when asked).", "quantifier": "every reachable skiplist, every min/max/limit", "why_tests_cant": "Boundary cases over floats and all layouts.", "anchors": ["datastruct/skiplist.go:Skiplist.RangeByScore,Count,GetFirstInScoreRange,GetLastInScoreRange,HasInScoreRange"]}
{"id": "C15", "title": "DeleteRangeByScore removes exactly the range", "statement": "DeleteRangeByScore(min,max) removes and returns exactly the elements with min<=score<=max in order and leaves all other elements, their order and all rank bookkeeping intact.", "quantifier": "every reachable skiplist, every min/max", "why_tests_cant": "Multi-node unlinking at all levels with one update vector.", "anchors": ["datastruct/skiplist.go:Skiplist.DeleteRangeByScore,deleteNode"]}
{"id": "C16", "title": "DeleteRangeByRank removes exactly the rank range", "statement": "DeleteRangeByRank(start,end) removes and returns exactly the elements at ranks start..end and leaves a well-formed list (ZREMRANGEBYRANK).", "quantifier": "every reachable skiplist, every start/end, every random level assignment", "why_tests_cant": "Depends on the random levels of the nodes.", "anchors": ["datastruct/skiplist.go:Skiplist.DeleteRangeByRank", "server/commandzset.go:zRemRangeByRankCommand"]}
{"id": "C17", "title": "A sorted set holds each member once with its latest score", "statement": "After any sequence of Add/Delete on a Zset, each member appears once in every rank or score range, at the position given by its latest score; Size is the number of members.", "quantifier": "every history of Add/Delete, including score updates", "why_tests_cant": "Two structures (dict and skiplist) must be kept in step over every history.", "anchors": ["datastruct/zset.go:Zset.Add,Delete,Get,Size,RangeByRank"]}
{"id": "C18", "title": "Sorted-set commands never crash the server", "statement": "ZADD/ZREM/ZRANGE/ZRANGEBYSCORE/ZREMRANGEBY* with any arguments never panic.", "quantifier": "every history and all arguments, including NaN scores and huge ranks", "why_tests_cant": "Needs particular histories.", "anchors": ["datastruct/zset.go:Zset.RangeByRank,DeleteRangeByRank", "server/client.go:addReplyZsetElements"]}
{"id": "C19", "title": "RESP request round trip", "statement": "A command sent as one RESP array of bulk strings, arriving in one read, is executed exactly once with exactly the argument list that was encoded, for any binary-safe arguments (CR, LF, NUL, empty strings included).", "quantifier": "every non-empty list of byte strings that fits one read", "why_tests_cant": "All byte contents and lengths.", "anchors": ["server/resp.go:processInputBuffer,processMultiBulkBuffer", "server/client.go:getCRLFIndexFromQueryBuffer,getNumFromQueryBuffer,moveToNextLineInQueryBuffer"]}
{"id": "C20", "title": "Request parsing does not depend on how the bytes are split into reads", "statement": "Whatever way the network splits an encoded command into reads, the server executes the same command once and keeps the connection open.", "quantifier": "every command and every split of its encoding into reads", "why_tests_cant": "There are exponentially many splits, the failing ones are two positions per argument.", "anchors": ["server/resp.go:processMultiBulkBuffer", "server/server.go:readQueryFromClient"]}
{"id": "C21", "title": "Pipelined commands are all executed", "statement": "If several commands arrive in one read, each is executed once, in order.", "quantifier": "every list of commands arriving in one read", "why_tests_cant": "Depends on how requests are batched by the network.", "anchors": ["server/resp.go:processInputBuffer", "server/client.go:Client.reset", "server/command.go:processCommand"]}
{"id": "C22", "title": "No client input can crash the server", "statement": "Whatever bytes a client sends, and however they are split, request parsing either executes commands, waits for more bytes, or closes that connection; it never panics.", "quantifier": "every byte sequence and every split", "why_tests_cant": "Input space is unbounded.", "anchors": ["server/resp.go", "server/commandconnection.go:selectCommand"]}
{"id": "C23", "title": "Inline commands", "statement": "A line of space separated words terminated by CRLF is executed as the command made of these words.", "quantifier": "every line", "why_tests_cant": "Every text line.", "anchors": ["server/resp.go:processInlineBuffer"]}
{"id": "C24", "title": "Every command gets exactly one well-formed RESP reply", "statement": "The bytes queued as the answer to one command decode as exactly one RESP value.", "quantifier": "every command, argument list and database state", "why_tests_cant": "Reply shape depends on data held (counts in headers must match the elements that follow) and on the text echoed in error messages.", "anchors": ["server/client.go:addReply*"]}
{"id": "C25", "title": "Replies are delivered in order, completely and once", "statement": "For any sequence of queued replies and any schedule of partial writes and EAGAINs, the bytes written to the socket are at every moment a prefix of the concatenation of the queued replies, nothing is skipped, repeated or reordered, and when the queue is empty everything has been written.", "quantifier": "every reply list and every schedule of short writes", "why_tests_cant": "Short writes are scheduling dependent.", "anchors": ["server/server.go:sendReplayToClient", "server/client.go:addReply"]}
{"id": "C26", "title": "Password gate", "statement": "When a password is configured, no command other than AUTH has any effect on, or reveals anything about, any database unless the latest AUTH on that connection carried the right password; a wrong AUTH revokes access.", "quantifier": "every sequence of commands on a connection", "why_tests_cant": "Must hold for all histories.", "anchors": ["server/command.go:processCommand", "server/commandconnection.go:authCommand"]}
{"id": "C27", "title": "Rejected commands have no effect", "statement": "A command with an unknown name, wrong number of arguments, an unparsable number, or a key holding another type gets an error reply and changes no key, no TTL, is not logged and does not disturb the connection.", "quantifier": "every state and argument list", "why_tests_cant": "Every command x every type.", "anchors": ["server/command.go:processCommand,lookupCommand", "server/command*.go"]}
{"id": "C28", "title": "Database isolation", "statement": "A command executed on the selected database never changes a key or TTL of any other database, and SELECT changes only the connection's selection.", "quantifier": "every command and state", "why_tests_cant": "All commands, all database numbers.", "anchors": ["server/commandconnection.go:selectCommand", "server/command*.go"]}
{"id": "C29", "title": "Reads never change data and are not logged", "statement": "GET, TTL, KEYS, HGET, HEXISTS, HKEYS, HLEN, LLEN, LINDEX, LRANGE, SCARD, SISMEMBER, SMEMBERS, SDIFF, SINTER, SUNION, ZRANGE, ZRANGEBYSCORE, ZCARD, ZCOUNT, ZSCORE, RANDOMGET change nothing visible except that keys whose TTL has passed disappear, and append nothing to the append-only log.", "quantifier": "every state and argument list", "why_tests_cant": "All states.", "anchors": ["server/command*.go"]}
{"id": "C30", "title": "SET/GET/SETEX semantics", "statement": "After SET k v, GET k returns v and k has no TTL; after SETEX k s v, GET returns v until the deadline and nil afterwards; other keys are unaffected.", "quantifier": "every state, key, value and time", "why_tests_cant": "All states incl. mid-rehash.", "anchors": ["server/commandstring.go"]}
{"id": "C31", "title": "Hash, list and set commands act on the abstract value", "statement": "HSET/HGET/HDEL/HEXISTS/HLEN/HKEYS, LPUSH/RPUSH/LPOP/LLEN, SADD/SREM/SCARD/SISMEMBER/SMEMBERS produce the reply and the new value of the corresponding operations on a finite map, a sequence and a finite set, and touch no other key.", "quantifier": "every state and argument list", "why_tests_cant": "All states.", "anchors": ["server/commandhash.go", "server/commandlist.go", "server/commandset.go"]}
{"id": "C32", "title": "SDIFF/SINTER/SUNION compute set algebra over keys", "statement": "SDIFF/SINTER/SUNION reply with exactly the members of the difference/intersection/union of the sets at the given keys, missing keys counting as empty sets.", "quantifier": "every state and key list", "why_tests_cant": "All states.", "anchors": ["server/commandset.go:sDiffCommand,sInterCommand,sUnionCommand"]}
{"id": "C33", "title": "An expired key is never observable by reads", "statement": "Once its deadline has passed, a key is reported as absent by every data-reading command and by KEYS/RANDOMGET/TTL.", "quantifier": "every state, key and time", "why_tests_cant": "Depends on time and on whether lazy/active expiry ran already.", "anchors": ["server/command.go:expireIfNeeded", "server/commandkey.go:ttlCommand,keysCommand"]}
{"id": "C34", "title": "Writing to an expired key starts from an empty value", "statement": "A write command on a key whose deadline has passed behaves as if the key were absent, and the value written remains readable.", "quantifier": "every state, key, time", "why_tests_cant": "Depends on time and on whether the key had been collected.", "anchors": ["server/commandhash.go:getHash", "server/commandlist.go:getQuickList", "server/commandset.go:getSet", "server/commandzset.go:getZset"]}
{"id": "C35", "title": "A key disappears only by its own TTL or by a command naming it", "statement": "Background expiry and lazy expiry remove only keys whose deadline lies strictly in the past; a key without TTL, or whose deadline has not passed, is never removed by them, and EXPIRE with a positive number of seconds never makes the key vanish at once.", "quantifier": "every state, every random sampling, every int64 argument", "why_tests_cant": "Random sampling, arithmetic overflow.", "anchors": ["server/server.go:databasesCron", "server/command.go:expireIfNeeded", "server/commandkey.go:expireCommand"]}
{"id": "C36", "title": "Every change is logged, and only changes", "statement": "Every command that changes the dataset (other than by expiry) appends to the log, and a command that changes nothing logs nothing or logs a command whose replay changes nothing.", "quantifier": "every state and command", "why_tests_cant": "All commands x states.", "anchors": ["server/command.go:call", "server/aof.go:feedAppendOnlyFile"]}
{"id": "C37", "title": "Log encoding round trip", "statement": "Loading a log produced by the server executes exactly the logged commands, in order, with the same arguments, for any binary-safe arguments and any log size.", "quantifier": "every list of commands", "why_tests_cant": "The failing cases depend on the alignment of arguments with a 64 KiB read buffer.", "anchors": ["server/aof.go:catAppendOnlyGenericCommand,loadAppendOnlyFile"]}
{"id": "C38", "title": "Crash during append: loading a truncated log", "statement": "For every point at which a crash may cut the log file, a restart executes exactly a prefix of the logged commands and the server starts.", "quantifier": "every log and every cut position", "why_tests_cant": "Every crash point.", "anchors": ["server/aof.go:loadAppendOnlyFile"]}
{"id": "C39", "title": "Replay reproduces the dataset", "statement": "Restarting from the log yields the same dataset (all databases, values and TTLs) that the server held.", "quantifier": "every command history, any number of restarts", "why_tests_cant": "All histories.", "anchors": ["server/aof.go:feedAppendOnlyFile,loadAppendOnlyFile", "server/server.go:NewServer"]}
{"id": "C40", "title": "Log rewrite preserves the dataset", "statement": "Loading the file produced by a log rewrite yields the dataset at the time of the rewrite followed by the commands executed since.", "quantifier": "every dataset and every command sequence executed while the rewrite runs", "why_tests_cant": "All datasets; concurrency between the writer and the main loop.", "anchors": ["server/aof.go:rewriteAppendOnlyFile,rewrite*Object,aofRewriteDoneCallback", "database/database.go:DeepCopy"]}
{"id": "C41", "title": "Log rewrite is crash safe", "statement": "At every crash point during a rewrite the log file on disk contains every command that had been flushed before.", "quantifier": "every crash point", "why_tests_cant": "Every crash point.", "anchors": ["server/aof.go:aofRewriteDoneCallback"]}
{"id": "C42", "title": "A write is on disk before it is acknowledged", "statement": "With appendfsync always, no reply to a write command is sent before the log record of that command has been written and synced.", "quantifier": "every interleaving of events handled in one loop iteration", "why_tests_cant": "Scheduling dependent.", "anchors": ["ae/ae.go:Main,processEvents", "server/aof.go:flushAppendOnlyFile", "server/server.go:beforeSleepProc,sendReplayToClient"]}
{"id": "C43", "title": "Automatic rewrite triggers exactly on growth", "statement": "The automatic rewrite starts iff no background task runs, rewriting is enabled, the log exceeds the minimum size and has grown by the configured percentage over the size after the last rewrite; the unsigned arithmetic never underflows in a reachable state; at most one rewrite runs at a time.", "quantifier": "every reachable server state", "why_tests_cant": "Arithmetic wrap-around over all sizes.", "anchors": ["server/server.go:serverCron", "server/aof.go:rewriteAppendOnlyFileBackground"]}
{"id": "C44", "title": "Event registration mirrors the kernel", "statement": "After any sequence of AddFileEvent/RemoveFileEvent the kernel interest mask of each descriptor is exactly the set of registered event types, registering twice fails and changes nothing, removing an unregistered event fails and changes nothing.", "quantifier": "every sequence of calls, every descriptor", "why_tests_cant": "All interleavings of two masks per fd.", "anchors": ["ae/ae.go:AddFileEvent,RemoveFileEvent,getEpollEventMask,getFileEventMapKey"]}
{"id": "C45", "title": "Time events fire when due", "statement": "A time event is run in a loop iteration iff its deadline has passed, never before; a one-shot event runs at most once, a periodic one is rescheduled interval ms after it ran; removal and addition affect only the event named; the wait never sleeps beyond the nearest deadline (and at most 1000 ms).", "quantifier": "every set of time events and every clock", "why_tests_cant": "Time dependent.", "anchors": ["ae/ae.go:processEvents,wait,getNearestTime,AddTimeEvent,RemoveTimeEvent"]}
{"id": "C46", "title": "A connection waits for writability iff it has unsent replies", "statement": "For every connected client, the writable event is registered exactly when the reply queue is non-empty, so no reply is stranded and no busy loop occurs.", "quantifier": "every sequence of queued replies and socket writes", "why_tests_cant": "All schedules.", "anchors": ["server/client.go:addReply", "server/server.go:sendReplayToClient"]}
{"id": "C47", "title": "Sorted-set commands act on an ordered map from members to scores", "statement": "ZADD, ZREM, ZREMRANGEBYRANK and ZREMRANGEBYSCORE change the map from members to scores at the key, and nothing else, as their arguments say; ZCARD, ZSCORE, ZCOUNT, ZRANGE and ZRANGEBYSCORE (with and without WITHSCORES) reply with what the map holds, ranges in the order of scores and members; none of them ends the server.", "quantifier": "every history of commands, every key, member, score and range", "why_tests_cant": "All histories; the two halves of a sorted set (dict and skiplist) must stay in step.", "anchors": ["server/commandzset.go:zAddCommand,zRemCommand,zRangeCommand,zRangeByScoreCommand,zRemRangeByRankCommand,zRemRangeByScoreCommand,zCardCommand,zCountCommand,zScoreCommand", "datastruct/zset.go", "datastruct/skiplist.go"]}
{"id": "C48", "title": "Positional list commands act on a sequence", "statement": "RPOP removes and returns the last element, LINDEX returns the element at its position, LRANGE the elements between two positions (negative positions of LRANGE count from the end), reads change nothing, and none of them ends the server.", "quantifier": "every history of commands, every key, position and list length", "why_tests_cant": "Lists of more than one page (1024 elements) and every position in them.", "anchors": ["server/commandlist.go:rPopCommand,lIndexCommand,lRangeCommand", "datastruct/quicklist.go:Remove,Get,Range,get"]}
{"id": "C49", "title": "No command ends the server", "statement": "Whatever commands clients send, in whatever order, and whatever the background jobs (expiry, flushing, rewriting the log) do in between, the server does not panic.", "quantifier": "every history of events of any number of clients", "why_tests_cant": "All histories; one bad input ends the server for all clients.", "anchors": ["server/command.go:processCommand", "server/commandconnection.go:selectCommand", "server/commandlist.go", "server/commandzset.go", "server/server.go:databasesCron"]}
{"id": "C50", "title": "End to end: the bytes a client sends determine the requests executed for it and the replies it gets", "statement": "For every schedule of the event loop and whatever other clients do, the requests executed for a client are those its own bytes encode, each once and in order, and it receives one reply value per request in the same order.", "quantifier": "every schedule of connections, reads, writes and timers; every way of splitting the bytes over reads", "why_tests_cant": "All schedules of several clients and all splits.", "anchors": ["server/server.go:readQueryFromClient,sendReplayToClient", "server/client.go", "ae/ae.go:processEvents"]}
{"id": "C51", "title": "Nothing is executed for or written to a connection that is closed or somebody else's", "statement": "Whenever a command is executed for a client or bytes are written to it, the client has been accepted and its connection is still open; connected clients have different descriptors; hence no reply byte reaches another client even when a descriptor is reused and an event reported earlier is still pending.", "quantifier": "every schedule of the event loop, every reuse of descriptors", "why_tests_cant": "Needs the closing and the pending event in the same iteration.", "anchors": ["server/client.go:free", "server/server.go:acceptTCPHandler,readQueryFromClient,sendReplayToClient", "ae/ae.go:processEvents,wait"]}
{"id": "C52", "title": "A key lives exactly until its deadline", "statement": "EXPIRE and EXPIREAT give an existing key the stated deadline and change nothing else; TTL tells the remaining seconds and changes nothing; a key that is not written to keeps its value and deadline whatever other commands and background jobs do, is seen by readers up to its deadline and by none afterwards.", "quantifier": "every history, every interleaving of other clients' commands and background jobs, every clock that does not go backwards", "why_tests_cant": "All histories between setting and reading.", "anchors": ["server/commandkey.go:expireCommand,expireAtCommand,ttlCommand", "server/server.go:databasesCron", "server/command.go:expireIfNeeded"]}
{"id": "C53", "title": "SPOP hands out each member once, and every member can be drawn", "statement": "SPOP on a live set that is not empty removes exactly one of its members, replies with that member, keeps the deadline and touches no other key; on an empty set or a missing key it replies null, on another kind of value with an error and no change. Every member can be the one drawn: for each member some outcome of the random generator makes SPOP reply with it, and for each live key some outcome makes RANDOMGET reply with it. Over any history in which only SPOPs change a set without deadline, by any number of clients and with anything else in between, the replies are pairwise different members of the set followed by nulls, a null comes only when every member has been handed out, and the set is always the original minus what was handed out.", "quantifier": "all reachable states, connections, sets, members, random draws and interleaved histories", "why_tests_cant": "Uniqueness over interleaved clients and the existence of a draw for every member are statements about all histories and all states of the hash table, including half finished rehashes.", "anchors": ["server/commandset.go:52-76 sPopCommand", "datastruct/set.go:15-37 GetRandom, Delete", "datastruct/dict.go GetRandomKey", "server/commandstring.go:55-80 randomGetCommand"]}
{"id": "C54", "title": "A restart after a crash recovers a moment of the past, with everything that was on disk", "statement": "If the machine crashes when only the first k bytes of the log have reached the disk, for any k, and the server starts again, its dataset is the one it had at some earlier moment of its history (up to the rounding of deadlines): no half of a command, no command missing in the middle. That moment is after every event whose log was within the k bytes, and not later than k+1 bytes. If the cut is where an event ended, the restart succeeds; in particular after the death of the process, when the file ends with the last flush, and everything before any flush is recovered. For the running server with appendfsync always, every command whose client has received a byte of a later reply is recovered, whatever was in flight.", "quantifier": "all histories and runs of the event loop, all cut points, clocks and random draws of the restart", "why_tests_cant": "Cut points multiply with histories; a test would have to crash the process at every byte of every log and compare with every earlier state.", "anchors": ["server/aof.go:29-59 feedAppendOnlyFile", "server/aof.go:95-111 flushAppendOnlyFile", "server/aof.go:136-216 loadAppendOnlyFile", "server/server.go:135 ListenAndServe", "server/server.go:179-249 readQueryFromClient, sendReplayToClient"]}
{"id": "C55", "title": "Over any number of restarts, crashes and log rewrites the data lives on", "statement": "Take any history made of commands, cron runs, flushes, log rewrites, clean restarts and crashes (restarts from the log as it was at an earlier moment). At every moment of it the log, loaded into a new server, gives the dataset of that moment, with deadlines rounded down to whole seconds (rounding happens once, not once per restart). After a kill the file is the whole log of the last moment at which something was written. A start from the log of an earlier moment always succeeds, brings back the dataset of that moment, no clients, and the same log. A key no command writes to keeps its value and its deadline (up to that one rounding) through all of this, as long as no crash goes back behind the moment it was written.", "quantifier": "all histories with any number of lives, any moments of crash, all clocks and random draws of the restarts, all keys", "why_tests_cant": "Errors of one restart (rounding, a wrong database, a lost record) may only show or add up over several; tests restart once at most.", "anchors": ["server/server.go:65-139 NewServer, ListenAndServe", "server/aof.go:29-59 feedAppendOnlyFile", "server/aof.go:95-111 flushAppendOnlyFile", "server/aof.go:136-216 loadAppendOnlyFile", "server/aof.go:218-412 rewriteAppendOnlyFileBackground, rewriteAppendOnlyFile, aofRewriteDoneCallback", "server/aof.go:61-74 catAppendOnlyExpireCommand"]}
{"id": "C56", "title": "The server starts listening as configured or not at all", "statement": "If any step of the start fails (no descriptor, option, address or port refused) the process has no socket open that it did not have before. Otherwise there is exactly one new listening socket, on the configured port, and the server has the configured number of databases (16 if none is configured) from then on. A host that is not an IP address is refused. A server told to listen on one IPv4 address can be reached by that address, and only by that address.", "quantifier": "all hosts, ports and other settings, all outcomes of the system calls, all later histories", "why_tests_cant": "Failures of system calls are not produced by tests, and a test that connects to the configured address cannot see that every other address of the machine works too.", "anchors": ["socket/socket.go:12-65 Socket, Close, Bind, Listen", "server/tcp.go:9-34 CreateTCPServer", "server/server.go:65-139 NewServer, Run"]}
{"id": "C57", "title": "The copy a log rewrite works on", "statement": "DeepCopy of a dict gives a dict with exactly the same entries, whatever the state of rehashing, that behaves as a map from then on; the original keeps its contents. At the level of the server: the snapshot given to a log rewrite has exactly the keys, values and deadlines of that moment, in every database, the databases themselves are unchanged, and no event before the end of the rewrite changes what it was given.", "quantifier": "all histories of dict operations and all server histories, all later events", "why_tests_cant": "The copy is made in the middle of rehashing and used while commands keep changing the original; tests copy small settled dicts.", "anchors": ["datastruct/dict.go:273-283 DeepCopy", "database/database.go:21- DeepCopy", "server/aof.go:220-250 rewriteAppendOnlyFileBackground"]}
{"id": "C58", "title": "Every command ends", "statement": "In every reachable state, whatever the clients have sent (NaN scores, changed scores and removals by rank that damage a sorted set included), every event of the server ends, loading a log at a restart included: no walk along a skiplist, a quicklist or a dict goes round in a circle. The only loops whose length is not bounded by the data are those that draw random numbers (RANDOMGET, SPOP, ZADD, also when they are in the log, and background expiry); whatever they have drawn so far, some finite continuation of the draws ends them, and ZADD ends as soon as one draw per member has stopped raising the level. What an event does depends only on the numbers that it draws.", "quantifier": "all configurations, all histories (with restarts) and the state they lead to, every event, every sequence of draws", "why_tests_cant": "A loop that does not end stops the whole server. Damaged skiplists do contain circles when links of different levels are mixed (the example shows one); that no single walk follows one is an invariant over all histories, which tests on intact lists cannot show.", "anchors": ["datastruct/skiplist.go:39-102 Insert", "datastruct/skiplist.go:104-380 Delete, DeleteRange, Range, Count", "datastruct/skiplist.go:382-393 randomLevel", "datastruct/quicklist.go:191-219 Range", "datastruct/dict.go:155-194 GetRandomKey", "server/commandstring.go:55-80 randomGetCommand", "server/server.go:274-296 databasesCron"]}
{"id": "C59", "title": "The log holds whole records of commands that the server accepts", "statement": "In every reachable state (with restarts and rewrites) the log file, the buffer that is not yet written and the buffer of a running rewrite are each a sequence of whole records: a SELECT of an existing database, or a command that changes data, with a number of arguments that the server accepts, and never EXPIRE or SETEX, whose deadlines would count from the restart. The same holds for every text that a rewrite can produce, whatever it finds in the containers when it reads them. If no argument crosses the end of the reader's buffer (C37), the loader finds exactly these records, and for a log that is cut at any byte, or left by a kill while a rewrite is installed, a prefix of them; so no handler is called with too few arguments at a restart.", "quantifier": "all configurations with an appendonly log, all histories in which rewrites install what rewriteAppendOnlyFile wrote and restarts read such a log, every cut", "why_tests_cant": "The loader calls the handlers without the check of the number of arguments; a record of the wrong shape would stop every later start. Which records the file can hold depends on all earlier commands, flushes, rewrites and restarts.", "anchors": ["server/aof.go:27-111 feedAppendOnlyFile, flushAppendOnlyFile", "server/aof.go:136-213 loadAppendOnlyFile", "server/aof.go:231-412 rewriteAppendOnlyFile, aofRewriteDoneCallback", "server/command.go:105-127 processCommand"]}
{"id": "C60", "title": "The server starts again from its own log", "statement": "A restart, from any file, panics only if the file is not a sequence of whole records, or if one of its records is empty, a SELECT of a negative index, a ZADD for which 127 successive draws raise a level, or another of the commands that can end the server (C49). The log of any history (with restarts and rewrites) is free of the first three; so a log without RPOP only stops the server from starting through such draws: otherwise no restart from it panics, and every sequence of random draws has a finite continuation with which it ends.", "quantifier": "all configurations, all histories and files, every clock, every sequence of draws", "why_tests_cant": "A log that stops the server stops it at every later attempt as well. The loader calls the handlers without the checks that protect them from clients, in states that differ from those in which the commands were first executed (expired keys, other random draws).", "anchors": ["server/aof.go:136-213 loadAppendOnlyFile", "server/server.go:65-136 NewServer, Run", "server/commandconnection.go:9-22 selectCommand"]}
