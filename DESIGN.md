# Formal model of IfanTsai/metis in Rocq (Coq 8.16.1)

## Approach

The Go code in /repo is modelled function by function as total, executable
Gallina functions (files `theories/*Model.v`).  Every definition cites the Go
file and lines it models and says where it simplifies.  Specifications that a
reader can check against the English property, and which do not mention the
model's helpers, are in `theories/*Spec.v`.  Proofs are in `*Proofs.v`.  The
property theorems are in `Props*.v`: each closed by `exact`, followed by
`Print Assumptions`, with an `Example` showing that the hypotheses are met.

Conventions:
* a Go panic (index out of range, nil dereference, makeslice, log.Panic,
  log.Fatal) is the value `Panic`; normal results are `Ok`.
* a pointer mutated in place is a value returned by the function; the skiplist
  is a real heap (node ids -> nodes), and containers stored in a database are
  references into an object store, so that aliasing between a snapshot and the
  live database is visible in the model.
* unbounded `for` loops are structural recursions or use fuel whose exhaustion
  is a distinct error value, excluded by the theorems.
* random numbers, the clock, the regexp engine, ParseFloat/FormatFloat and
  strconv.Quote are explicit oracle parameters; the theorems quantify over them.

Where the full property is false of the code, the false statement's negation is
proved on a concrete reachable witness (`..._refuted`) and the strongest true
part is proved as well (`..._partial` or under the exact condition).

## Plan per property

| id | modelled | how |
|----|----------|-----|
| C01-C06 | datastruct/dict.go, any hash function | invariant on two bucket arrays; abstraction to `gmap`; refinement over operation lists; termination measure for rehash |
| C07 | datastruct/set.go | corollary of dict iteration + map refinement |
| C08-C11 | datastruct/quicklist.go | pages as list of lists; refinement to `list`; C09 is expected refuted (shadowed `pageIndex`), with the exact condition of correctness |
| C12-C16 | datastruct/skiplist.go as a heap of nodes | invariant tying every forward pointer/span/backward pointer to one sequence; refinement to sorted list; C16 refuted (`rank` reset per level) with the exact condition: right iff every element before the range has one level |
| C17-C18 | datastruct/zset.go | dict+skiplist agreement invariant; expected refuted for score updates, NaN; what each sorted-set command needs to panic, in every reachable state (PropsZsafe) |
| C19-C23 | server/resp.go, client.go buffer handling, readQueryFromClient | byte-level parser over (queryBuf, queryLen), parameterised by the command executor; C20-C23 expected refuted, exact split condition proved for C20 |
| C24 | reply encoders, all commands | RESP decoder as spec; refuted for echoed error text, proved otherwise |
| C25, C46 | sendReplayToClient, addReply | state machine over arbitrary write results |
| C26-C36 | server/command*.go over the concrete data structures | refinement of each command to a spec on abstract keyspaces |
| C37-C38 | catAppendOnlyGenericCommand, loadAppendOnlyFile incl. bufio.Reader | byte-level reader with buffer size B |
| C39-C41 | feedAppendOnlyFile, load, rewrite, done callback | replay theorem for histories without SPOP in which no deadline passes, up to the levels of skiplist nodes (RndFrame: what ZADD draws); refutations; the text of a rewrite leads to an exactly described dataset (RewriteProofs); keys written meanwhile and keys not written are tracked separately (BlendProofs) |
| C42 | event loop iteration with flush/send | state machine; refuted + partial |
| C43 | serverCron trigger arithmetic | uint64 arithmetic with wrap, invariant |
| C44-C45 | ae/ae.go | state machine with the kernel's interest set as state |
| C47 | server/commandzset.go over dict and skiplist | histories without the four known triggers ("careful") keep dict and skiplist in step; refutations for each trigger |
| C48 | server/commandlist.go RPOP, LINDEX, LRANGE over the quicklist | lists of one page: full; longer lists: front half; laws for the crashes |
| C49 | every event over the whole model | no panic along histories that meet stated conditions; without conditions, only seven commands can panic (invariant over all histories: pointers of a skiplist lead to nodes of that level, SolidProofs, SolidCmd), and what the list and range commands need for it (SolidRange); a short history for each condition and each command |
| C50 | event loop, parser and replies together | executed requests are a function of the client's own reads (law); with one command per read, one reply each in order; refuted for commands that share a read |
| C51 | event loop, descriptors | nothing is executed for or written to a client that is not connected, for every schedule (invariant over traces) |
| C52 | EXPIRE, EXPIREAT, TTL, lazy and periodic expiry | frame theorem over histories: unwritten keys keep value and deadline; what a reader sees depends on value, deadline and clock only; refuted for overflow, missing keys and TTL after the deadline |
| C53 | SPOP, RANDOMGET | sound, complete, and once per member over interleaved histories |
| C54 | crash recovery | every cut of the log against the moments of the history (CrashProofs), the trace of the loop against its history (CrashLoop) |
| C55 | many lives | an invariant over histories with restarts and rewrites: the log leads from the empty dataset to the present one; exact rounding makes it stable (PropsLives) |
| C56 | start | transcription of net.ParseIP for IPv4 with its inverse; a table of sockets and arbitrary answers of the system calls; the state entered is the initial state of LoopModel (PropsStart) |
| C57 | DeepCopy | law over all dict histories (DictRun), then over server histories with an arbitrary continuation (PropsRewrite) |
| C58 | termination | invariant over all histories: per level, every chain of a skiplist is finite (TermProofs), lifted through commands and restarts (TermCmd); extension of draws (TermDraw, TermMore: all commands leave the numbers behind those they draw), the loader (TermBoot) |
| C59 | form of the log | invariant over all histories (LogProofs): what a command appends, what a rewrite writes for arbitrary contents; reading back by C37/C38 lemmas |
| C60 | restart succeeds | which record of which file can panic (UpProofs), with the form of the log (C59) and termination (C58) |

## Trusted base

1. The Coq 8.16.1 kernel, including `vm_compute` (used for the refutations, the
   examples and some finite case distinctions).
2. Axioms: none.  `Print Assumptions` answers "Closed under the global context"
   for every theorem listed in MANIFEST.json (the command is repeated after each
   theorem in the `Props*.v` files).  The libraries std++ and Coq's stdlib are used
   for definitions and lemmas only.  A global list of the loaded axioms shows the
   ones in Coq's own ssreflect `Under_rel`; no theorem depends on them.
3. That the model says what the Go code says.  Nothing connects the two
   mechanically: the definitions were written by reading /repo, and each cites the
   lines it stands for.  The mutation log (`seeded/LOG.jsonl`) shows which theorems
   notice a wrong definition; it does not show that the definitions are right.
4. The statements.  The specifications are in the `Props*.v` and `*Spec.v` files
   and in the first part of `CommandSem.v` (commands on abstract values).

## What is modelled

| Go | Coq | remarks |
|----|-----|---------|
| datastruct/dict.go | DictModel.v | all functions; any key type and hash; capacity limited by the largest slice Go allows |
| database/dict.go | DatabaseModel.v | FNV-1a 64, signed |
| database/database.go | ServerModel.v, CommandModel.v | NewDatabase, DeepCopy (shallow, as in Go) |
| datastruct/set.go | SetModel.v | all functions, aliased arguments included |
| datastruct/quicklist.go | QuicklistModel.v | all functions used by the server, iterators |
| datastruct/skiplist.go | SkiplistModel.v | all functions, as a heap of nodes |
| datastruct/zset.go | ZsetModel.v | all functions used by the server |
| server/resp.go, client.go (buffers), readQueryFromClient | RespModel.v | byte level |
| strconv.Atoi, Itoa | Strconv.v | 64-bit range, underscores and signs as in Go |
| float64 comparison | Float.v | on `SpecFloat.spec_float`, with NaN and infinities |
| server/client.go (replies) | ServerModel.v | |
| server/command.go, command*.go | CommandModel.v | all 43 commands of the table |
| server/aof.go:29-92 | CommandModel.v | feeding the log |
| server/aof.go:136-213, bufio.Reader | LoadModel.v, SystemModel.v | loading the log, with any contents |
| server/aof.go:95-135, 215-412 | AofModel.v, SystemModel.v, LoopModel.v | flush, rewrite, done callback |
| server/server.go | SystemModel.v, LoopModel.v | handlers, cron; NewServer and Run as the initial state, from a log or without one |
| socket/socket.go:12-65, server/tcp.go, server/server.go:65-139, net.ParseIP (IPv4) | StartModel.v | the start, with arbitrary outcomes of the system calls |
| ae/ae.go | EventModel.v | all functions but Main's error exits |

`CommandSem.v` is the abstract semantics of the commands (finite maps, sequences,
sets); `CommandFacts.v` proves that the executable model refines it.

## What is not modelled

* log/, config/, cmd/, main.go, socket.Connect and GetSockName (not used by the
  server); accept, read and write appear as environment answers.
* The text form of IPv6 addresses (a parameter).
* Server.Stop, which only ends the process: what it leaves of the log is what a kill
  at that moment leaves (C54, C55), it does not write the buffer.
* epoll beyond the interest set; the kernel's socket buffers.
* The Go memory model.  The rewriting goroutine shares containers with the main
  goroutine; the model reads the container of each key in one step, each at an arbitrary time while the rewrite runs.
* Memory exhaustion.  `make` panics beyond the address space only.
* Text functions of the library: ToLower, EqualFold, ParseFloat, FormatFloat,
  regexp, error texts.  They are parameters (`lib`) of every theorem; a theorem that
  needs a fact about them (for instance that FormatFloat is inverted by ParseFloat)
  has it as a hypothesis, and an instance satisfying it is used in the examples
  (`ExampleLib.v`).
* Failures of file operations (the process exits).
* The end of a process is an event (`EvBoot`): the next one starts with an arbitrary
  log whose commands have an accepted number of arguments, which holds for every readable log
  the server writes (C59).  The log found at the start is on disk.
* Clock: one reading per command, milliseconds; arbitrary values, it may go back.
* Arithmetic on int64 wraps where a client can reach the limits (deadlines, ranks,
  indexes); counters of entries and of dirty are unbounded, histories are limited
  to 2^42 arguments (`history_ok`).

## Mutation testing

`seeded/LOG.jsonl` has one line per attempt: a definition of the model was changed
as a realistic bug would change it, everything that depends on it was rebuilt, and
each failing proof was replaced by an assumption in order to see which top theorems
depend on it.  "failed" lists these theorems.  Where no theorem failed although the
claim was false, the property was tightened ("tightened").
