# A Rocq model of go-air/dupi

The model is Gallina over the Coq 8.16.1 standard library. It follows the Go source in
`/repo` function by function. The properties are those of `properties.jsonl` (C01-C121);
`MANIFEST.json` names the theorems of each.

## Layout

* `rocq/theories/Model/*.v` – the model: total, executable definitions (and transition
  relations for everything concurrent), no proofs. Every definition cites the file and lines
  it models and says where it simplifies.
* `rocq/theories/Spec/*.v` – small specifications that do not use the functions of the model
  (what a word, a window, a posting list, a clean path, a visible file, a history of
  documents ... is). They use the model's record types where these are only data.
* `rocq/theories/Proof/*.v` – lemmas.
* `rocq/theories/Props/*.v` – the property theorems `Cnn_...`, each with its
  `Print Assumptions`, and an `Example` per property, or per group of theorems with the same
  hypotheses, that meets the hypotheses with a concrete case.
* `seeded/LOG.jsonl` – mutation tests: wrong programs (edits of the model) and the theorems
  that fail on them.

Naming: `..._partial` = part of the property (the comment or the manifest's note says which
part); `..._refuted` = the property as stated is false of the model; the theorem is the
negation or a statement that implies it; some give one witness, some say for which inputs
the property fails. These are findings about the code. A property with a refuted
theorem has status `partial` in the manifest, and its note starts with `REFUTED`.

## Modelling conventions

* bytes and uint16/32/64 are `N`, with the reduction modulo 2^16/32/64 written wherever Go
  wraps; int and int64 that can be negative or overflow are `Z`, with wrapping and the
  conversions spelled out; lengths and indexes of slices are `nat`.
* A file is the list of its bytes, a missing one `None`. `os.File` operations are
  read-at, write-at, append and truncate.
* `result` = `Ok | Err (EOF | EOther) | Panic | Loop`. `Panic` is a Go run-time panic, `Loop`
  is running out of the fuel of a loop; theorems show that it does not happen or (C31) how
  long it takes. Nil slices are explicit where the code tests for nil, and capacity where
  the code looks at it (`Model/Query`: a slice is a length and a backing array).
* Goroutines, channels, mutex, condition variable and flock are labelled transition systems;
  theorems quantify over all schedules. Progress statements are step bounds plus "not final
  implies some step", so they do not need a fair scheduler.
* Disk effects are lists of writes, so a crash is a prefix of them, possibly ending inside
  of one.
* Universally quantified parameters: the Unicode tables above ASCII (`unicode.IsLetter`,
  `IsDigit`, `ToLower`), the working directory at each call, the order in which the unstable
  `sort.Slice` leaves ties, the growth of slices by `append`, the contents of the file system
  for commands, which files cannot be opened.

## Trusted base

1. The kernel of Coq 8.16.1 (and, for the gate, `coqchk`).
2. Axioms: none of ours, and none of the standard library's in any property theorem:
   `Print Assumptions` says "Closed under the global context" after every theorem of `Props`.
   `coqchk` also lists seven constants `Coq.ssr.ssrunder.Under_rel.*`: these are module
   parameters in a file of the standard library that is loaded through `Lia`; no theorem
   depends on them. `vm_compute` is used in some examples and witnesses; it is part of the
   kernel.
3. The reading of the Go code, which is what the citations in `Model` are for, and the
   contracts of Go 1.17's library as modelled: `encoding/binary` (varints, big endian),
   `encoding/json` for the configuration record and the output of extract, `unicode/utf8`, `hash/fnv`, `path/filepath`
   (Clean, Abs, Join, Split, WalkDir) on Unix, `flag` with `strconv`'s ParseBool, ParseInt (base 0) and ParseFloat (taken to round correctly), IEEE 754 binary64
   with Go's freedom to fuse x*y + z, `fmt`'s `%x` in
   Printf and Sscanf and `%d` in Printf for uint32, `strings.Split`; POSIX read/write/truncate/append and flock
   (a conversion of a lock is not atomic); for C110 LockFileEx and UnlockFileEx.
4. Programs without data races run as if sequentially consistent (Go memory model). For one
   caller of Add and Close that absence is a theorem (C68), of the accesses and synchronising
   operations that `Fine` lists; that the list is complete is our reading of the code. `Fine`
   takes the calls to `sync` and the channel operations as atomic. The coarser steps of
   `Conc` are then justified: every execution of `Fine` is one of `Conc`, and C22-C24 hold
   of `Fine` too (C69). With several callers (C25), with concurrent lookups (C43) and with
   slices the caller changes (C59) there are races; their models are interleavings of the
   steps they name.

## What is modelled

| Source | Model | Properties |
|---|---|---|
| `post/t.go` | `Post` | C02 |
| encoding/binary | `Varint` | C01 |
| shatter.go:138-142, index.go:177-190, query.go:63-72, 129-168, shard Serve | `Address` | C03, C04 |
| `dmd/*.go` | `Dmd` | C05-C07 |
| `fnames.go`, path/filepath | `Fnames`, `Path` | C08-C10 |
| `internal/shard/poster.go`, `posts.go`, `read_state.go` | `Poster` | C11-C13 |
| `internal/shard/indexer.go`, `index.go` | `Shard` | C11-C14 |
| `token/t.go`, unicode/utf8 | `Token`, `Utf8` | C15, C16 |
| `blotter/*.go` | `Blotter` | C17, C18, C88 |
| `shatter.go` (one document) | `Shatter` | C16, C19, C20 |
| `shatter.go`, `indexer.go`, shard `Serve` (goroutines) | `Conc`, `Run` | C22-C25, C81 |
| the same, access by access | `Fine`, `FineRun` | C68, C69 |
| `indexer.go`, `index.go` (opening, Add, Close, Stats) | `Session` | C21, C23, C26, C32 |
| `index.go` (BlotDoc, FindBlot, FindBlots) | `Index` | C20, C40-C42 |
| `query.go`, `blot.go` | `Query` | C26-C31, C77, C78, C84 |
| `lock/file.go`, `lock/unix.go` and their callers | `Lock` | C33-C35, C52 |
| all writes of a session, one by one; opening any files | `Crash` | C36, C37, C75, C76 |
| Close with failing system calls (those of File.Close excepted) | `CloseFault` | C82, C83 |
| `config.go`, `token/config.go`, `blotter/config.go` | `Config`, `Json` | C38, C39 |
| `dmd/t.go` Lookup from several goroutines | `DmdConc`, `NextConc` | C43 |
| posting file with a failing write | `Fault` | C44 |
| document records with failing calls | `DmdFault` | C65 |
| `cmd/dupi/like.go`, `blot.go`, `unblot.go`, `doc.go` Load | `Cmd` | C45, C47, C54, C55 |
| `doc.go`, FindBlot on what a query returned | `Cmd`, `Loading` | C79, C80 |
| `cmd/dupi/extract.go` | `Extract`; `Output` (what is printed) | C46, C70, C71 |
| float64 (`C66_rounding`, `C66_root`: operations round to the nearest number, ties to even), mean and sigma of Stats, threshold of extract | `Float`, `Stats` | C66, C67 |
| `cmd/dupi/dupi.go` | `Args` | C48, C53 |
| `cmd/dupi/index.go` | `Walk` (paths), `Options` (what the options do) | C49, C61 |
| the flag sets of the verbs, package flag | `Flags`, `Verbs` | C72 |
| `cmd/dupi/inspect.go`, `stats.go`; %d, %.2f and JSON of float64 | `Inspect` | C74 |
| all of dupi, from arguments to files and output | `Program` | C73 |
| `attic/ibloom/fnv32.go`, `attic/bposts.go` | `Bloom`, `BloomOnes` | C50, C63 |
| `attic/ibloom/estimate.go` | `Estimate` | C119 |
| `Config` of blotters and filters, `attic/ibloom/config.go` | `ConfigOf` | C94 |
| `attic/trigram/t.go` | `Trigram` | C51 |
| stored root, `remove.go` | `Root` | C56, C57 |
| blots as command line arguments | `Hex` | C58 |
| who reads a document's slice when | `Alias` | C59 |
| `cmd/dupenron/main.go` (indexEnron) | `Enron` | C60 |
| `cmd/dupenron/main.go` (main, oEnron, csvReader), `encoding/csv`, and the buffer of its Writer | `Csv`, `EnronMain` | C89, C90, C91 |
| `cmd/dupenron/main.go` (options, main, the counts printed) | `EnronArgs` | C116 |
| `post/t.go` String, `token/t.go` String, `fnames.go` String | `Strings` | C117 |
| `fnames.go` addPath called by several goroutines | `PathRace` | C118 |
| `indexer.go` doc2Id called by several goroutines | `DocRace` | C120 |
| `query.go` Next called by goroutines that share a Query | `NextRace` | C121 |
| goroutines in Adder.Add at the same time | `AddRace`, `Conc` | C97 |
| two appending indexers at a time | `Overlap` | C62 |
| what is opened, closed, started and ended, with failing calls | `Handles` | C86, C87 |
| queries of an index opened before others appended | `Live` | C85 |
| the same, every read at a moment of its own | `Moments` | C95 |
| an append session stopped between a link and its chunk | `Crash`, `Live` | C96 |
| what an index tells after a stopped append session | `Crash`, `Query` | C98 |
| appending again after a stopped append session | `Crash`, `Session`, `Query` | C99 |
| appending again after a Close that failed inside a document record | `CloseFault`, `Session`, `Dmd`, `Query` | C100 |
| Next against Get, in any index that opens | `Query`, `Crash` | C101 |
| the two readers of a table against each other, for any files | `Poster`, `Shard`, `Crash` | C102 |
| creating an index with failing calls | `CreateFault` | C103 |
| an indexer whose configuration was read before the index was replaced | `StaleConfig` | C104 |
| queries whose reads fail (a chunk of a posting list, or a look-up of a document number) | `ReadFault` | C105 |
| the machine stopping after sessions, files that are not written synchronously being as before them | `Power` | C106 |
| the names of an index's files, among all other files | `Names` | C107 |
| an index inside of a directory that is indexed | `Self`, `Names`, `Walk` | C108 |
| several indexes in one file system | `Several`, `Names`, `Self`, `Session` | C109 |
| `lock/windows.go` | `LockWin` | C110 |
| what a query that runs during append sessions gives | `Timeline`, `Moments`, `NextMoments`, `Live` | C111 |
| JSON texts (RFC 8259) and the configurations they give | `Json`; `Spec/JsonText` | C112 |
| the order of documents and their division into sessions | `Session`, `Query`, `Extract`, `Stats`, `Inspect`, `Cmd` | C113 |
| how long the files of an index are, and what they depend on | `Session`, `Shard`, `Poster`, `Dmd`, `Fnames`, `Conc` | C114, C115 |
| the number of shards in uint32 (index.go, blot.go, like.go) | `Index`, `Cmd`, `Address` | C64 |

How the proofs go: the codecs by induction over digit groups; the posting file is a function
`render` of the log of flushed chunks, each flush refines "append to the log", and the reader
recovers a slot of it; the path tree refines a set of component lists; the blotter's
accumulator is the xor of its ring, which holds the last hashes; the goroutines have an
inductive invariant (documents in flight, turns, what every shard has received) and a
measure that decreases with each step; at the finer grain, every access to a location is
made by a holder of it, and holders learn of all earlier accesses from whom they have the
location; an abstraction maps the fine states to the coarse ones; whole sessions compose these, and an induction over
histories of sessions gives the statements about queries. Crashes are prefixes of the
writes; a failing write splits a run into the part before, where the invariant of the file
holds, and an explicit description of the files after.

`Props/RepoTests.v` has the tests of /repo as statements about the model: all that they assert
holds of it.

## What is not modelled

* Links and permissions of files, and paths that lead through `..` out of a directory that is not there (C107). Elsewhere
  than in C107-C109 the files of an index are given without paths; C107_opens is what justifies it for opening a finished index,
  C109 for sessions. In C109, while a session is under way its files can have any contents; creating an index either fails before
  it has made the directory or succeeds; nothing is said of an index one of whose sessions was stopped or failed, and removing a directory with a session under way in it is not among the events.
* Windows paths, and operating systems other than Unix, but for the lock on Windows (C110).
* Power failures other than those of C106 (after finished sessions that appended; dmd,
  files.fnm and each table are as before the sessions or as after them, and any file may be
  cut short; not: files with old parts before new ones). Elsewhere a crash is the end of the process between or within system calls, and
  what has been written stays.
* Failing system calls other than: writes to the posting files (C44: one write fails, with
  any number of bytes written), the calls that write document records (C65: any of them
  fail), the calls of Close (C82, C83: any of them fail, except `File.Close`; C87: all of them), the opening of an
  index (C86: what stays open; the files' contents are not in that model), opening and
  reading of documents and directories by the commands, reads by queries (C105). In particular Stat and Seek of the
  posting files do not fail before Close, opening an index has no failing
  calls other than those that C75 and C76 imply (for creating one see C103), and errors of `os.RemoveAll` are left out.
* Memory exhaustion (also from a number read out of a damaged file, C76), and sizes of slices beyond `int`; goroutine stacks; timing; garbage
  collection other than finalizers of files (C52).
* `math.Log`: in C119 it is any function. Signs of floating-point zeros. What the conversion of a float64
  outside of int64 gives is a parameter (`wild`); C66 and C67 are about any `-sigma` with
  which the threshold is an int64, C67_overflow about all others but those within 2^13 of
  the limits, for the conversion of amd64.
* Printing: usage texts, `String` methods other than those of Stats, posts, tokens and path sets (and of a token's tag only the two the tokenizer gives); what is logged, and what is
  printed when options are wrong. The shortest decimal number for a float64 (C74) is found by
  the search that strconv's roundShortest makes; Go 1.17 does it by the algorithm of Ryu, which
  has the same result. C74_json is about roots that are UTF-8.
* `encoding/json`: anything the configuration record does not use. Bytes of a file that are not
  UTF-8 are read as U+FFFD; C112 is about files that are UTF-8.
  (C71: of a Decoder, only that it reads value after value.) Of `encoding/csv`, only what the options of dupenron let it do. Of `cmd/dupenron`:
  the agent beyond that it starts or does not, and `qEnron`, which is not called; C91 is about runs in which the
  index can be created and closing it does not fail, C116 about runs in which no other process has the lock and no worker panics.
* The directory walk of the index command (C49) sees a tree that does not change while it
  runs; opening a file does not block. One behaviour of `filepath.WalkDir` that differs
  between Go versions, SkipDir for an unreadable directory, is a parameter (`fixed`).
* C73: the agent that main starts, runs that panic, and
  index when making the indexer fails after it has begun to write. Lock files are not among
  the files there, and one command runs at a time (C33-C35 are about more). The documents do not change while index walks; if
  the index directory is under one of the paths, what the walk finds in it is part of the
  assumed tree.
* In C43 each goroutine has a Query of its own, and the only shared state is the position of the dmd file. In C121
  they share one; reading a document id, looking up a document and `advance` are one step each, which is kinder than the code, and lookups do not get in each other's way.
  A failed read leaves the read state as it was there; in the code it may not.
* C25's model lets the callers' `doc2Id` be one step, which is kinder than the code. C97 has the
  steps of `dmd.Adder.Add` and C118 those of `fnames.addPath`, both sequentially consistent. In C118
  a slice or string is stored at once and maps do not throw, which is kinder than Go. C120 has both together.
* In C85 every query sees the files of one moment. In C95 (Get) every read has a moment of its
  own. C111 is about Get and, with unlimited entries, Next; extract is not modelled this way. C111 assumes more: a read sees each link, which is
  overwritten in place, as it was before or after that write. (A link half-way between two of its values can lead anywhere.)
* C62's model has one schedule of the writes (both open, one writes everything, then the
  other); it is a refutation.

## Findings

The `_refuted` theorems. Reproducing them takes the inputs named in the theorem or its
comment.

* C07 the number of documents reported is one too many. C15/C21 the tokenizer loses the last
  character, and the worker the first full window of words. C31 the call after the end of a
  query spins for 2^32-1 rounds. C30 a limited query skips blots, C78 and can
  return documents twice. C84 entries used again keep their documents under the number of another
  blot, and a query with full ones never ends. C79 a slice used again keeps the texts of the documents that were in it,
  and FindBlot looks in these. C80 a file of more than 2^32 bytes is filed with its length modulo 2^32.
* C25 two goroutines calling Add can block for ever. C97 they can get the same number for two documents, after which Close
  never returns, or panic. C43 concurrent Gets return other
  documents. C81 Add and Close never return after Close. C59 Add keeps the caller's slice, and empties the caller's Path.
* C33-C35, C52 the lock: a root with a slash at its end has another lock file; appenders
  take a shared lock; Unlock does not release; a failed create keeps the lock. C62 two
  appenders lose documents. C85 in an index that is open while others append, the query for a
  blot panics as soon as a document with a new path has the blot. C104 OpenIndexer reads the configuration before it takes
  the lock: if the index is replaced in between by one of more shards, the session writes the old configuration over the new
  one, and queries tell other documents. C105 a Next that failed because a read failed loses what it had read: the next call
  returns the blot without these documents and without an error, or, given the same entry, with a blank document.
  C106 nothing is synced but appended postings: if the machine stops after Close and one shard's table is still the old one,
  the index opens and queries for the new blots of that shard find nothing, without an error.
  C107 the lock file is opened with O_TRUNC: a file that is called like the root with ".lock" behind it is emptied, even by
  `dupi -r Cargo extract` in a directory with a Cargo.lock and no index. Where an index "x" was created there can be no index "x.lock".
  C108 `dupi -r idx index .` adds idx.lock and the posting files and tables of idx to idx; with -a also its dmd, files.fnm and
  cfg.json, which Close then changes. (The default root ".dupi" is hidden and not walked.)
  C110 on Windows there are no shared locks: of the readers, too, one at a time has the index open.
* C37 stopping during Close makes an index unreadable, and so does, C83, a full disk. C96 stopped
  between the link and the chunk it leads to, an append leaves an index whose queries end with errors and that
  cannot be appended to. (C98: a query that does not end with an error is right.) (C101: so is what Next returns; but in a damaged index a
  list that is gone from one shard can make Next end before the blots of another shard.) (C99: but if the index is
  appended to again, the new session counts document numbers from the stale table and links its posts behind those of the
  stopped one: queries then tell documents without the blot, or fail.) C44 a failed write is logged, and
  the retry writes a chunk that cannot be decoded. C65 document records are written a second
  time after a failed write, and all later numbers lead to other documents.
  C100 a record written in part is not noticed: the next session appends behind it, and its documents are told
  with other paths and offsets. C103 when creating an index fails after the directory was made, be it for a wrong configuration, it can be neither created nor opened
  until the directory is removed by hand. C102 an index that opens for appending can fail to open for reading: without the file dmd the
  appender begins a new one, and it never looks at the error of reading a total. C39 a shorter configuration written over
  a longer one cannot be read.
* C38 overflow in the consistency check. C64 65536 shards and more are accepted and cannot be
  searched. C61 -t, -s 0, -n 0, negative -n, and -a with
  other options. C53 an option after a non-option argument is ignored, and a root named like
  a verb is taken for the verb. C58 `0x1f` is read as 0.
* C42 FindBlots with a start other than 0. C47 blot -offsets prints wrong ranges. C54 like
  misses matches and stops at missing files. C49 index ends silently at a file it cannot
  open, drops errors of Add, skips `..`, and adds files under two arguments twice. C60 dupenron's ranges are wrong.
  C89 dupenron -o never flushes its Writer, so the end of the output is missing, mostly all of it. C91 a malformed
  record makes dupenron leave an index that cannot be opened nor made again. C116 so does a file that is not there, or none
  given; and with any -s but 10 dupenron only fails. C117 the text of a post leaves out the upper half of its blot.
  C118 two goroutines can get one number for different paths, and a goroutine in addPath can panic. C119 for rates above 0.7072 and elements enough Estimate gives no hashes,
  and a filter without hashes has every element. C120 of two documents added at a time
  one can get the path of the other, with records and numbers of their own. C121 goroutines that share a Query can take a blot
  apart, and then documents are dropped, with two of them the blot; and a goroutine that was late in advancing makes a blot
  come again.
* C86 opening or creating an index that fails keeps the lock, files and goroutines it had got
  so far; Close that fails early keeps the posting files open. C87 errors of File.Close are
  dropped, and Index.Close drops those of the lock.
* C88 words that occur an even number of times in a window cancel: texts with such windows all
  have blot 0, whatever the words.
* C93 after 2^32 - 1 documents the numbers begin again. C94 the configuration of a filter of 2^60
  bytes or more overflows.
* C56, C57 the stored root: moved and copied indexes, removal of the original.
* C75 extract takes a missing document record for the end of the blots, and appending to an index
  whose dmd file is shorter gives out ids a second time. C76 a changed byte can make opening or a
  query panic, and a list or a parent that leads back to itself makes a query run for ever.
* C70, C71 the output of extract: ambiguous when paths have spaces, and with -json no JSON
  document unless there is exactly one blot.
* C72 options after a path are paths, `-json false` is `-json`, `-n 010` is 8, and like takes
  `--` for a file; a `-sigma` written with 100000 characters can be read wrong.
* C67 with a very large -sigma, extract prints every duplicated blot (amd64). C74 inspect -json
  prints nothing for an index with no shards.
* C50, C51 corners of the attic packages.

## Mutation tests

`seeded/LOG.jsonl` has one line per finished attempt: the definition edited, the edit, the
property it breaks, the theorems that failed, and what was tightened.

Edits are made in a copy of the theories. A lemma whose proof script no longer checks is
assumed there, and the theorems that come to depend on such an assumption are listed as
failed. So "failed" means that the script of some lemma below the theorem broke. It does not
mean that the theorem is false of the edited model: one broken lemma near the bottom takes
many theorems with it. The list is an upper bound, and evidence of a sensitive statement only
for the claims where the edit was checked to make the statement false. The other direction is
sound: a theorem not listed still has its proof.

Each line names the commit the copy was taken from.
