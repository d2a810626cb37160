{"id": "C01", "title": "Posting-list integers survive the disk encoding", "statement": "Every unsigned/signed 64-bit integer the index writes (document-id deltas, chunk lengths, list heads, totals, path-table lengths) is decoded from its variable-length or big-endian encoding to exactly the same integer, consuming exactly the bytes that were written, whatever bytes follow.", "quantifier": "all 64-bit values, all following bytes", "why_tests_cant": "2^64 values times arbitrary suffixes; boundary errors at 7-bit group edges are easily missed", "anchors": ["internal/shard/poster.go:writeVarint64,AddPost,initAppend", "internal/shard/posts.go:readVarintAt,readNext", "fnames.go:readUvarint32,writeUvarint32"]}
{"id": "C02", "title": "A post keeps its document id and blot", "statement": "Packing a document id and a blot into one post and taking it apart again returns the same two 32-bit numbers, and distinct pairs give distinct posts.", "quantifier": "all pairs of 32-bit values", "why_tests_cant": "2^64 pairs", "anchors": ["post/t.go:Make,Docid,Blot,Split"]}
{"id": "C03", "title": "Splitting and joining blots are inverse", "statement": "For every index with fewer than 65536 shards, JoinBlot after SplitBlot gives the blot modulo NumShards*65536, SplitBlot after JoinBlot gives back the shard and the shard blot, and SplitBlot always names an existing shard.", "quantifier": "all shard counts 1..65535, all 32-bit blots", "why_tests_cant": "the product of shard counts and blots cannot be enumerated; wrap-around happens only for extreme shard counts", "anchors": ["index.go:SplitBlot,JoinBlot"]}
{"id": "C04", "title": "Writer and reader agree on where a blot lives", "statement": "The shard and the slot under which indexing files a blot are the shard and the slot that Query.Get consults, for the blot itself and for the blot reduced modulo NumShards*65536; two blots share a slot exactly when they are equal modulo NumShards*65536.", "quantifier": "all shard counts, all 32-bit blots", "why_tests_cant": "needs all blots and shard counts; three different pieces of code compute the address", "anchors": ["shatter.go:blot", "internal/shard/indexer.go:Serve", "query.go:Get,fillBlot"]}
{"id": "C05", "title": "Document ids are consecutive, never reused, and survive re-opening", "statement": "The k-th document ever added to an index (over any number of create/append sessions, any flush rate, any position of session boundaries) gets document id k, and the metadata stored for that id is that document's file id, start and end, after the last session is closed.", "quantifier": "all sequences of sessions and documents (fewer than 2^32-1 documents), all flush rates >= 1", "why_tests_cant": "depends on where the document falls relative to flush and session boundaries", "anchors": ["dmd/adder.go:NewAdder,Add,flush,Close", "dmd/t.go:Lookup"]}
{"id": "C06", "title": "Looking up an id that was never assigned is an error", "statement": "After closing, Lookup of any id greater than the number of documents ever added returns an error and never the metadata of some other document.", "quantifier": "all histories, all 32-bit ids", "why_tests_cant": "all ids beyond the end", "anchors": ["dmd/t.go:Lookup"]}
{"id": "C07", "title": "The reported document count is the number of documents", "statement": "Stats reports as number of documents the number of documents added to the index.", "quantifier": "all histories", "why_tests_cant": "needs all histories; a test fixes one", "anchors": ["dmd/t.go:NumDocs", "index.go:Stats"]}
{"id": "C08", "title": "Stored paths read back as the cleaned absolute path", "statement": "The path reported for a document is the lexically cleaned absolute form of the path given to Add, whatever other paths are added before or after.", "quantifier": "all paths, all working directories, all histories of additions", "why_tests_cant": "arbitrary path shapes (empty components, dots, root) and arbitrary interleavings with other paths", "anchors": ["fnames.go:addPath,abs"]}
{"id": "C09", "title": "Path ids identify paths", "statement": "Adding the same cleaned path twice gives the same id and does not grow the path set; different cleaned paths get different ids; adding a path never changes the path of an existing id.", "quantifier": "all histories, all pairs of paths", "why_tests_cant": "pairwise property over unbounded histories", "anchors": ["fnames.go:addPath,abs"]}
{"id": "C10", "title": "The path set survives being written and read back", "statement": "Reading back a written path set succeeds, gives the same path for every id, and from then on every sequence of additions returns the same ids and paths as it would have without writing and reading.", "quantifier": "all path sets reachable by additions and reloads, all later additions", "why_tests_cant": "quantifies over all later behaviours of the reloaded structure", "anchors": ["fnames.go:write,breadFnames"]}
{"id": "C11", "title": "A posting list reads back exactly", "statement": "For each blot the list of documents read from disk after closing is exactly the sequence of documents posted to it with consecutive repetitions removed, in the order they were posted, for any number of posts and any interleaving with flushes and re-opened sessions.", "quantifier": "all sequences of posts, all flush points, all session boundaries", "why_tests_cant": "chunks chain on disk; errors need particular lengths (e.g. buffer 511/512 bytes)", "anchors": ["internal/shard/poster.go:AddPost,flushTo,readToLink", "internal/shard/posts.go:next,readNext"]}
{"id": "C12", "title": "Blots sharing a file do not disturb each other", "statement": "Posting to one blot of a shard never changes what is read for any other blot of that shard, although all of them share one posting file in which links are overwritten in place.", "quantifier": "all sequences of posts over all 65536 blots of a shard", "why_tests_cant": "needs all interleavings of 65536 lists in one file", "anchors": ["internal/shard/indexer.go:Serve,flushInd", "internal/shard/poster.go:flushTo"]}
{"id": "C13", "title": "Reading a well-formed index never panics or mis-decodes", "statement": "On files produced by indexing, the reader's fixed-size buffer is always large enough, no slice goes out of range and no decoding error is reported.", "quantifier": "all files produced by any history", "why_tests_cant": "depends on maximal chunk size over all histories", "anchors": ["internal/shard/posts.go:readNext", "internal/shard/poster.go:readToLink"]}
{"id": "C14", "title": "The shard table survives being written and read back", "statement": "The table of list heads, counts and last ids of a shard, when written at Close and read at open, is the same table (for both reader and appender).", "quantifier": "all tables", "why_tests_cant": "65536 entries of variable-length fields", "anchors": ["internal/shard/indexer.go:flushIix,readIix", "internal/shard/index.go:readIix", "internal/shard/poster.go:initAppend"]}
{"id": "C15", "title": "Tokens partition the text", "statement": "The tokens of a valid UTF-8 document are non-empty, lie one after another starting at the document's offset with the positions they report, alternate between word and non-word, word tokens consist of letters and digits only and the others of neither; together they spell the document.", "quantifier": "all byte strings, all offsets", "why_tests_cant": "all Unicode texts", "anchors": ["token/t.go:Tokenize"]}
{"id": "C16", "title": "Invalid UTF-8 contributes nothing", "statement": "A document that is not valid UTF-8 yields no tokens, hence no blots and no posts, and does not disturb other documents.", "quantifier": "all byte strings", "why_tests_cant": "all byte strings", "anchors": ["token/t.go:Tokenize", "shatter.go:do"]}
{"id": "C17", "title": "A blot depends only on the last window of words", "statement": "The blot produced at a word is the exclusive-or of the hashes of the last SeqLen words (for an interleaving k: every k-th of the last k*SeqLen words), whatever was hashed before.", "quantifier": "all word sequences, all window lengths >= 1, all interleavings >= 1, all previous contents of the blotter", "why_tests_cant": "history independence over unbounded histories", "anchors": ["blotter/circ.go:Blot", "blotter/interleaved.go:Blot"]}
{"id": "C18", "title": "Blots ignore case and word order inside the window", "statement": "Two windows with the same words up to letter case and order get the same blot.", "quantifier": "all windows", "why_tests_cant": "all permutations", "anchors": ["blotter/circ.go:Blot"]}
{"id": "C19", "title": "The fingerprints of a document do not depend on other documents or on the worker", "statement": "The posts sent for a document depend only on the document and the configuration, not on which worker processes it nor on the documents that worker processed earlier.", "quantifier": "all documents, all previous documents of the worker", "why_tests_cant": "workers keep their hashing state between documents; needs all histories", "anchors": ["shatter.go:do,blot"]}
{"id": "C20", "title": "Blotting a document gives the fingerprints under which it is indexed", "statement": "The blots BlotDoc reports for a text are, modulo NumShards*65536, exactly the blots under which indexing files that text.", "quantifier": "all texts, all configurations", "why_tests_cant": "two separately written loops must agree on every text", "anchors": ["index.go:BlotDoc", "shatter.go:do"]}
{"id": "C21", "title": "Copied text is found", "statement": "If two documents contain the same run of SeqLen words then they share a blot, so that Query.Get of that blot returns both.", "quantifier": "all pairs of documents sharing a run of words", "why_tests_cant": "all pairs of texts and positions", "anchors": ["shatter.go:do", "index.go:BlotDoc", "query.go:Get"]}
{"id": "C22", "title": "Posts reach every shard in document-id order", "statement": "Under every schedule of workers and shard servers, the posts arrive at every shard in increasing order of document id, every document's posts in one uninterrupted batch, none lost and none twice.", "quantifier": "all interleavings, any number of workers and shards", "why_tests_cant": "interleavings", "anchors": ["shatter.go:send,startShatter", "internal/shard/indexer.go:Serve"]}
{"id": "C23", "title": "The index built does not depend on the schedule", "statement": "For the same documents, every complete execution leaves every shard in the same state as processing the documents one after another by a single worker.", "quantifier": "all interleavings, any number of workers and shards", "why_tests_cant": "interleavings", "anchors": ["shatter.go:startShatter,send", "indexer.go:Add,Close"]}
{"id": "C24", "title": "Add and Close never deadlock", "statement": "With at least one worker, whatever the schedule, some goroutine can always move until Close has shut everything down, every execution is finite, and no goroutine sends on a closed channel.", "quantifier": "all interleavings, any number of workers, shards and documents", "why_tests_cant": "deadlocks need rare schedules", "anchors": ["shatter.go:send,startShatter", "indexer.go:Add,Close", "internal/shard/indexer.go:Serve"]}
{"id": "C25", "title": "Add may be called from several goroutines", "statement": "Concurrent callers of Add cannot make the indexer stop making progress.", "quantifier": "all interleavings of several callers", "why_tests_cant": "interleavings", "anchors": ["indexer.go:Add,doc2Id", "shatter.go:send"]}
{"id": "C26", "title": "A query returns exactly the documents holding the blot", "statement": "After any sequence of create/append sessions, each under any schedule, opening the index and calling Query.Get for a blot with no limit returns exactly the documents one of whose fingerprints equals the blot modulo NumShards*65536, each once, in the order they were added, each with its cleaned path, start and end.", "quantifier": "all histories, all configurations, all schedules, all blots", "why_tests_cant": "end-to-end over unbounded histories", "anchors": ["query.go:Get", "index.go:OpenIndex,docid2Doc", "indexer.go:Add,Close,openFromConfig", "shatter.go:do"]}
{"id": "C27", "title": "A limited query returns a prefix", "statement": "Query.Get with a non-nil Docs slice fills at most its spare capacity, leaves the documents already in it, and returns a prefix of the unlimited answer.", "quantifier": "all indexes, blots and capacities", "why_tests_cant": "all capacities", "anchors": ["query.go:Get", "blot.go:Next"]}
{"id": "C28", "title": "Iterating a query visits every duplicated blot once", "statement": "Calling Query.Next with unlimited entries until it reports end-of-file returns every blot that has at least two documents exactly once, with all of its documents, and no other blot.", "quantifier": "all index contents, all sizes of the destination slice", "why_tests_cant": "all index contents, all tie-breakings of the unstable sort", "anchors": ["query.go:Next,fillBlot,advance,setMax"]}
{"id": "C29", "title": "Iterating a query is in order of frequency", "statement": "The blots returned by successive Query.Next calls have non-increasing numbers of documents.", "quantifier": "all index contents, all tie-breakings of the sort", "why_tests_cant": "all index contents", "anchors": ["query.go:setMax,advance", "internal/shard/index.go:readIix"]}
{"id": "C30", "title": "Iterating a query with limited entries visits every duplicated blot", "statement": "With entries of limited capacity (at least two), every blot with at least two documents is still visited.", "quantifier": "all index contents and capacities", "why_tests_cant": "needs particular totals modulo the capacity and several shards", "anchors": ["query.go:Next,fillBlot,advance"]}
{"id": "C31", "title": "After the last blot, Next reports end of file at once", "statement": "Once the blots are exhausted, Query.Next returns (0, EOF) after a number of steps bounded by the number of shards, again and again.", "quantifier": "all index contents, all sizes of the destination slice", "why_tests_cant": "needs the state after exhaustion", "anchors": ["query.go:Next"]}
{"id": "C32", "title": "Statistics count posts", "statement": "Stats reports as number of posts the number of distinct (document, blot modulo NumShards*65536) pairs, as number of blots NumShards*65536, and as number of paths the number of nodes of the path tree.", "quantifier": "all histories", "why_tests_cant": "all histories", "anchors": ["index.go:Stats", "internal/shard/index.go:NumPosts"]}
{"id": "C33", "title": "Creating an index excludes every other user of it", "statement": "While an index is being created (from IndexerFromConfig to Close) no other Index or Indexer can get hold of its lock; any number of readers can hold it together otherwise.", "quantifier": "all schedules of lock operations by any number of processes", "why_tests_cant": "interleavings", "anchors": ["lock/file.go:New,Close", "lock/unix.go:Lock,Unlock,LockShared", "indexer.go:IndexerFromConfig", "index.go:OpenIndex"]}
{"id": "C34", "title": "Appending to an index excludes every other user of it", "statement": "While an index is open for appending no other Index or Indexer can get hold of its lock.", "quantifier": "all schedules of lock operations", "why_tests_cant": "interleavings", "anchors": ["indexer.go:openFromConfig", "lock/unix.go:LockShared"]}
{"id": "C35", "title": "Unlock releases the lock", "statement": "After Unlock, another process can take the lock exclusively.", "quantifier": "all lock histories", "why_tests_cant": "needs a second process at the right moment", "anchors": ["lock/unix.go:Unlock"]}
{"id": "C36", "title": "A crash while creating an index is never mistaken for a finished index", "statement": "If the process stops at any point before Close of a newly created index has finished writing, then opening the index either fails with an error or shows exactly the complete index.", "quantifier": "all crash points, all documents, all interleavings of the shards' closing writes", "why_tests_cant": "crash points", "anchors": ["indexer.go:IndexerFromConfig,Close", "internal/shard/indexer.go:InitCreate,Close,flushIix", "index.go:OpenIndex"]}
{"id": "C37", "title": "A crash while appending leaves the earlier documents readable", "statement": "If the process stops at any point of an append session, opening the index shows at least the documents of the earlier sessions, correctly.", "quantifier": "all crash points", "why_tests_cant": "crash points", "anchors": ["indexer.go:openFromConfig", "internal/shard/poster.go:flushTo,readToLink", "dmd/adder.go:flush"]}
{"id": "C38", "title": "A configuration is accepted exactly when it is consistent", "statement": "NewConfig accepts a sequence length exactly when it equals interleave times blotter sequence length of the configuration it builds; ReadConfig likewise.", "quantifier": "all integers", "why_tests_cant": "all integers", "anchors": ["config.go:NewConfig,check,ReadConfig", "blotter/config.go:FromConfig,DefaultConfig"]}
{"id": "C39", "title": "A configuration written over an old one is read back", "statement": "After Config.Write, reading the configuration file gives the configuration written, whatever the file held before.", "quantifier": "all configurations, all previous file contents", "why_tests_cant": "previous contents longer than the new ones", "anchors": ["config.go:Write,ReadConfig"]}
{"id": "C40", "title": "FindBlot returns the text carrying the blot", "statement": "FindBlot returns the first place in the document whose blot modulo NumShards*65536 is the given one, the range it returns lies inside the document and starts and ends at word boundaries, and it reports an error exactly when the document does not carry the blot.", "quantifier": "all documents, all blots, all configurations", "why_tests_cant": "all texts", "anchors": ["index.go:FindBlot"]}
{"id": "C41", "title": "FindBlots returns only equal text", "statement": "Every text FindBlots reports for a blot is the text given for that blot and occurs in the document.", "quantifier": "all documents, all maps", "why_tests_cant": "all texts and maps, all document offsets", "anchors": ["index.go:FindBlots"]}
{"id": "C42", "title": "Documents with a non-zero start are searched like others", "statement": "FindBlots gives, for a document that is the part of a file from Start to End, the result it gives for the same text at start zero.", "quantifier": "all documents and offsets", "why_tests_cant": "all offsets", "anchors": ["index.go:FindBlots"]}
{"id": "C43", "title": "Concurrent queries do not disturb each other", "statement": "Two goroutines querying the same open Index each get the documents they would get alone.", "quantifier": "all interleavings of the file operations of two lookups", "why_tests_cant": "interleavings of seek and read", "anchors": ["dmd/t.go:Lookup", "query.go:Get"]}
{"id": "C44", "title": "A failed write is not silently turned into a damaged index", "statement": "If one write to a posting file fails and later ones succeed, the posting lists read after Close either are right or an error was reported by Close.", "quantifier": "all positions of the failing write", "why_tests_cant": "fault positions", "anchors": ["internal/shard/poster.go:flushTo,AddPost", "internal/shard/indexer.go:Serve"]}
{"id": "C45", "title": "like reports only documents sharing text", "statement": "Every document the like command reports contains, byte for byte, a stretch of the queried file spanning SeqLen+1 words.", "quantifier": "all files, all indexes", "why_tests_cant": "all texts", "anchors": ["cmd/dupi/like.go:doFilename"]}
{"id": "C46", "title": "extract prints the blots above the threshold", "statement": "The extract command prints exactly the blots with at least two and at least the threshold number of documents, most frequent first, then stops without error.", "quantifier": "all index contents, all thresholds", "why_tests_cant": "all index contents", "anchors": ["cmd/dupi/extract.go:Run", "query.go:Next"]}
{"id": "C47", "title": "blot -offsets prints the place of each blot", "statement": "The byte range printed by blot -offsets for a blot is the range of the SeqLen+1 words ending with the word at which the blot was produced.", "quantifier": "all files", "why_tests_cant": "all texts", "anchors": ["cmd/dupi/blot.go:doFilename"]}
{"id": "C48", "title": "The command line splits at the first verb", "statement": "The arguments before the first verb are the global ones, everything from the verb on belongs to the verb, nothing is lost; without any verb usage is printed.", "quantifier": "all argument lists", "why_tests_cant": "all argument lists", "anchors": ["cmd/dupi/dupi.go:splitArgs,main"]}
{"id": "C49", "title": "index visits every visible file", "statement": "index adds every regular file under the given directories that is not hidden and not under a hidden directory, each once, and if it could not it reports an error.", "quantifier": "all directory trees, all sets of unreadable files", "why_tests_cant": "all trees", "anchors": ["cmd/dupi/index.go:mkWalkFn,doPath,Run"]}
{"id": "C50", "title": "Bloom filters have no false negatives", "statement": "After adding a value, Has reports it, whatever is added later, and union with another set keeps it.", "quantifier": "all sets, sizes, hash counts and values", "why_tests_cant": "all values and sizes", "anchors": ["attic/ibloom/fnv32.go:Add,Has,Ones", "attic/bposts.go:AddPost,HasPost,Union"]}
{"id": "C51", "title": "Trigram codes stay in range and spell the text", "statement": "Every trigram produced from tokens is below NumTrigrams and prints as the last three letters of the (case-folded, squeezed) text read so far.", "quantifier": "all token sequences", "why_tests_cant": "all token sequences", "anchors": ["attic/trigram/t.go:Shift,FromToken,VisitToken,String"]}
{"id": "C52", "title": "A failed open gives the lock back", "statement": "When creating or opening an index fails after its lock was taken, the lock is released, so that another user (also of the same process) can take it.", "quantifier": "all schedules of lock operations", "why_tests_cant": "Needs the failure of one process or goroutine to be combined with every later schedule of the others; a test would block forever instead of failing.", "anchors": ["indexer.go:IndexerFromConfig,openFromConfig", "index.go:OpenIndex", "lock/file.go:Close"]}
{"id": "C53", "title": "The index root on the command line is the one used", "statement": "A command given -r R before its verb works on the index at R.", "quantifier": "all argument lists and roots", "why_tests_cant": "all argument lists", "anchors": ["cmd/dupi/dupi.go:splitArgs,main,getIndexRoot"]}
{"id": "C54", "title": "like finds all documents that share text", "statement": "The like command reports every indexed document that is unchanged since it was indexed and contains, at word boundaries, a stretch of SeqLen+1 words of the queried file.", "quantifier": "all histories of sessions, queried files and states of the file system", "why_tests_cant": "Needs every pair of a document and a queried file, in particular those with equal blots of different texts.", "anchors": ["cmd/dupi/like.go:doFilename", "index.go:FindBlots", "doc.go:Load"]}
{"id": "C55", "title": "unblot shows the texts of a blot with their documents", "statement": "unblot prints, for a blot, each text with that blot that stands in an indexed document as its first such text, together with exactly the documents it is the first such text of; without -all only the texts of at least two documents.", "quantifier": "all indexes, blots and states of the file system", "why_tests_cant": "Needs all documents and all blots, including colliding texts.", "anchors": ["cmd/dupi/unblot.go:Run", "index.go:FindBlot", "doc.go:Load"]}
{"id": "C56", "title": "An index can be moved and copied", "statement": "Opening an index for reading or appending uses the files of the directory it is told to open: a moved or copied index directory gives the answers of the index that was moved or copied, and appending to a copy changes the copy only.", "quantifier": "all histories of sessions and all directories", "why_tests_cant": "Tests open an index where they made it.", "anchors": ["index.go:OpenIndex", "indexer.go:OpenIndexer", "config.go:ReadConfig"]}
{"id": "C57", "title": "Removing an index removes that index and nothing else", "statement": "RemoveIndex and RemoveIndexer remove the files of the index in the directory they are given, leave all other files alone, and do not take an index away from somebody who has it open.", "quantifier": "all file systems, indexes and interleavings with other processes", "why_tests_cant": "Needs other processes between the release of the lock and the removal, and directories that were copied.", "anchors": ["remove.go:RemoveIndex", "remove.go:RemoveIndexer"]}
{"id": "C58", "title": "unblot looks up the blot that its argument spells", "statement": "Every blot that blot or extract print is spelled by the printed text; unblot given that text looks up that blot, and refuses arguments that do not spell a blot in hexadecimal.", "quantifier": "all blots and all argument strings", "why_tests_cant": "There are 2^32 blots and infinitely many arguments.", "anchors": ["cmd/dupi/unblot.go:Run", "cmd/dupi/extract.go:Run", "cmd/dupi/blot.go:Run"]}
{"id": "C59", "title": "Add indexes the document as it is when Add is called", "statement": "A document is indexed with the data, path, start and end that it has at the time of the call of Add, whatever the caller does with its variables once Add has returned.", "quantifier": "all data, all programs of the caller and all interleavings with the workers", "why_tests_cant": "The workers read the data concurrently with the caller; tests do not reuse their slices.", "anchors": ["indexer.go:Add", "indexer.go:doc2Id", "shatter.go:startShatter", "shatter.go:do"]}
{"id": "C60", "title": "dupenron's documents can be read back as they were indexed", "statement": "Each document that dupenron adds covers exactly the bytes of the file that were indexed for it, so that its start and end give that text back.", "quantifier": "all CSV files, all records", "why_tests_cant": "The command has no tests, and the archive it reads has half a million records.", "anchors": ["cmd/dupenron/main.go:main", "doc.go:Load"]}
{"id": "C61", "title": "The index command makes the index its options ask for, or refuses them", "statement": "dupi index with options -n, -s, -t and -a makes (or opens) an index with that number of shards, workers and that sequence length into which documents can be added, or refuses the options with an error before anything is changed.", "quantifier": "all option values, roots and documents", "why_tests_cant": "Option values range over all integers, and the wrong ones block or panic only once documents are added.", "anchors": ["cmd/dupi/index.go:getIndexer", "config.go:NewConfig", "shatter.go:startShatter", "indexer.go:Add"]}
{"id": "C62", "title": "Documents added by two sessions at a time are all found", "statement": "When two indexers are open for appending to the same index at the same time, which the lock allows, the documents added by both are in the index once both are closed, each under its own number, path, start and end.", "quantifier": "all indexes, all documents of both sessions", "why_tests_cant": "It takes two processes that overlap in time, and the loss only shows when the index is queried later.", "anchors": ["indexer.go:openFromConfig", "indexer.go:Close", "dmd/adder.go:NewAdder", "dmd/adder.go:flush", "fnames.go:Write"]}
{"id": "C63", "title": "A post set lists its members", "statement": "Ones lists exactly the numbers in a Bloom post set in order, IsZero says whether there are none, Union and Intersect are those of the sets, and PutOnes gives the numbers that Add puts in for a value and that Has looks for.", "quantifier": "all sets, all values, all filter sizes below 2^29 bytes", "why_tests_cant": "The sets are of any size; the code has no tests of these functions.", "anchors": ["attic/bposts.go:Ones", "attic/bposts.go:IsZero", "attic/bposts.go:Union", "attic/bposts.go:Intersect", "attic/ibloom/fnv32.go:PutOnes"]}
{"id": "C64", "title": "An index with any accepted number of shards can be searched", "statement": "For every number of shards with which an index can be made, FindBlot, FindBlots and the blot and like commands do not panic, and a blot that a query reports is found in the documents it comes from.", "quantifier": "all numbers of shards, documents and blots", "why_tests_cant": "The numbers of shards from 65536 on are never tried, and the product wraps to 0 or to a small number only there.", "anchors": ["index.go:FindBlot", "index.go:FindBlots", "cmd/dupi/blot.go:doFilename", "cmd/dupi/like.go:doFilename"]}
{"id": "C65", "title": "A failed write of document records does not give numbers other documents", "statement": "When calls of the operating system fail while the adder writes document records, every document for which Add returned a number is found under that number once Close has reported success, and the documents of earlier sessions are found as before.", "quantifier": "all histories, documents, flush rates and sequences of failures", "why_tests_cant": "It takes a file system that fails in the middle of a batch of records and works again afterwards; the damage only shows when documents are looked up later.", "anchors": ["dmd/adder.go:Add", "dmd/adder.go:Close", "dmd/adder.go:flush"]}
{"id": "C66", "title": "Statistics are the mean and the standard deviation up to rounding, and extract's threshold follows from them", "statement": "For every index, BlotMean is finite and within a relative 2^-51 of the number of posts divided by the number of blots. BlotSigma is finite, and its square is within a relative 2^-35 of the exact variance of the numbers of documents of all blots, plus the square of 2^-51 times the mean. Both are exact when all blots have equally many documents. The threshold of extract is within 1/2 and the rounding error of BlotMean + sigma*BlotSigma, and extract prints exactly the blots with at least two and at least that many documents.", "quantifier": "all histories of sessions, configurations, and values of -sigma up to 2^20, with and without fused multiply-add", "why_tests_cant": "Rounding errors add up over all 65536 counts of each shard and up to 65535 shards; underflow, overflow and cancellation occur for particular distributions only.", "anchors": ["index.go:Stats", "internal/shard/index.go:SosDiffs", "internal/shard/index.go:NumPosts", "cmd/dupi/extract.go:Run"]}
{"id": "C67", "title": "A larger -sigma does not make extract print more", "statement": "For every index and all values s <= t of the option -sigma, every blot that extract prints with -sigma=t is printed with -sigma=s.", "quantifier": "all histories of sessions and all values of -sigma", "why_tests_cant": "It fails only for thresholds that are not an int64, and monotonicity relates two runs on any index.", "anchors": ["cmd/dupi/extract.go:Run"]}
{"id": "C68", "title": "Indexing has no data races", "statement": "With one goroutine that calls Add and then Close, any two accesses to the same memory of which one is a write are ordered by the happens-before relation of the Go memory model: requests, posts, the slices s.d, mono.docid, the channels' fields, the shards and the tables of file names and documents.", "quantifier": "all executions (interleavings of the caller, the workers, the senders, the shard servers and the goroutines that close the shards) of all sessions, any configuration, numbers of workers and shards, and documents", "why_tests_cant": "A race detector sees the accesses of the schedules that happen to run; the claim is about every interleaving.", "anchors": ["shatter.go:send", "shatter.go:do", "indexer.go:Add", "indexer.go:Close", "internal/shard/indexer.go:Serve", "internal/shard/indexer.go:Close"]}
{"id": "C69", "title": "Order, result and termination of indexing at the grain of single accesses", "statement": "With every access to shared memory, lock operation, go statement and channel operation a step of its own, each shard receives the posts in order of the documents, what the shards hold when Close writes the files does not depend on the schedule, no goroutine sends on a closed channel, and every execution comes to an end, with all goroutines returned.", "quantifier": "all executions of all sessions with a consistent configuration and fewer than 2^32-1 documents", "why_tests_cant": "The number of interleavings is astronomical even for two documents; lost wake-ups need a particular one.", "anchors": ["shatter.go:send", "shatter.go:do", "indexer.go:Close", "internal/shard/indexer.go:Serve"]}
{"id": "C70", "title": "The text printed by extract says which documents share which blots", "statement": "Without -json, extract prints one line for every blot with at least two and at least the threshold number of documents, most frequent first: the blot in hexadecimal and, unless -b is given, ' path@start:end' for each document; and the same text is not printed for other blots or documents.", "quantifier": "all indices made by any history of sessions, all thresholds; unambiguity for all paths", "why_tests_cant": "Unambiguity compares the outputs of all pairs of indices with all paths.", "anchors": ["cmd/dupi/extract.go:Run"]}
{"id": "C71", "title": "extract -json prints a JSON document", "statement": "With -json, what extract prints is one JSON document, from which the frequent blots and the path, start and end of each of their documents can be read.", "quantifier": "all indices made by any history of sessions, all thresholds, all paths", "why_tests_cant": "The tests do not run the command; whether the output parses depends on the number of blots and on the bytes of the paths.", "anchors": ["cmd/dupi/extract.go:Run", "doc.go:Doc", "blot.go:Blot"]}
{"id": "C72", "title": "The verbs take their options from the command line as their help texts say", "statement": "Each verb runs with the options written on its command line, each with the value given last or its default, and with the remaining arguments; options may stand anywhere, a word after a flag is its value, numbers are decimal unless they have a prefix, -- ends the options; wrong options end the process with status 2, -h and -help with status 0.", "quantifier": "all argument lists of all verbs", "why_tests_cant": "The tests do not run the commands; the claim is about every list of strings, with every spelling of options and numbers.", "anchors": ["cmd/dupi/index.go:Run", "cmd/dupi/extract.go:Run", "cmd/dupi/blot.go:Run", "cmd/dupi/unblot.go:Run", "cmd/dupi/inspect.go:Run", "cmd/dupi/like.go:Run"]}
{"id": "C73", "title": "dupi as a whole: index, then ask", "statement": "dupi index creates an index of the visible files under its arguments, or with -a adds them to one, exits with status 0 and changes nothing but the index; it refuses to create one over something that is there. Every later extract (with a -sigma that gives a threshold within 64 bits), like, blot, unblot (of hexadecimal numbers below 2^32) or inspect, from any working directory and however the index is named (-r R, -r=R, DUPIROOT), while the files of the index are as left and, for like and unblot, the documents are in place, exits with status 0, changes nothing, and prints what the verb is for: extract the blots above the threshold with exactly their documents, like for each file exactly the documents that share a last stretch of eleven words with a blot (among them all copies), blot the blots of the files (with -offsets and ranges as described in C47), unblot the first texts with the blots and their documents, inspect the statistics. Without an index they exit with status 1, without a verb the status is 1, with wrong options 2, and a call for help gives 0; nothing is changed then.", "quantifier": "all argument lists with valid options (-t and -c as by default), working directories, environments, trees of readable files, sequences of index runs, schedules of the goroutines within them, iteration orders of maps, and sort orders of equal counts", "why_tests_cant": "Needs all sequences of commands over all file trees and all schedules; a test sees one sequence with a few files.", "anchors": ["cmd/dupi/dupi.go:main", "cmd/dupi/index.go:Run", "cmd/dupi/extract.go:Run", "cmd/dupi/like.go:Run", "cmd/dupi/blot.go:Run", "cmd/dupi/unblot.go:Run", "cmd/dupi/inspect.go:Run"]}
{"id": "C74", "title": "inspect prints the statistics of the index", "statement": "dupi inspect prints the root of the index, the number of documents (plus one, C32), the number of nodes of the path tree, the number of posts and of blots, and the mean and standard deviation of the number of documents per blot rounded to two places; with -json it prints a JSON object with the same seven values, in which mean and deviation are written so that a reader gets back exactly the float64 computed, with no more digits than that takes.", "quantifier": "all histories of sessions, all configurations with at least one shard, all schedules, sort orders and roots (valid UTF-8 for -json); for the numbers, all nonnegative finite float64 values", "why_tests_cant": "The tests do not run inspect; that a decimal text is read back exactly is a claim about 2^63 numbers, and the values printed depend on the whole history of the index.", "anchors": ["cmd/dupi/inspect.go:Run", "stats.go:String", "index.go:Stats"]}
{"id": "C75", "title": "A shortened index is not answered wrongly", "statement": "If files of an index have been cut short, or are missing, then opening the index is an error, or else every query of a blot gives all its documents (up to the limit) or an error, every call of Next gives what it should or an error, and extract prints all the frequent blots or ends with an error; nothing panics or runs for ever.", "quantifier": "all histories of sessions, configurations, schedules and sort orders; all combinations of cut positions in all of the files, and of missing files; all blots, limits and thresholds", "why_tests_cant": "Every file can be cut at every byte, independently of the others; the tests do not damage files at all.", "anchors": ["index.go:OpenIndex", "query.go:Get", "query.go:Next", "query.go:fillBlot", "cmd/dupi/extract.go:Run", "dmd/t.go:Lookup", "internal/shard/posts.go:readNext", "fnames.go:breadFnames", "internal/shard/index.go:readIix"]}
{"id": "C76", "title": "Arbitrary bytes in the files of an index", "statement": "Whatever bytes the files of an index contain, opening it gives an index or an error, and a query of a blot gives its documents or an error: there is no crash and no endless loop. An index opens exactly if all its files are there and well formed, and a query succeeds exactly if the chunks of the blot's list lead to the end and every document on it has a record and a path.", "quantifier": "all contents of all files (bytes), all configurations that can be read from them, all blots; for the counterexamples, all histories of sessions and all blots that some document has", "why_tests_cant": "The files are arbitrary byte strings, whose chunk positions, lengths, parents and record numbers can point anywhere, also in circles; the tests never change a file.", "anchors": ["index.go:OpenIndex", "query.go:Get", "index.go:docid2Doc", "dmd/t.go:Lookup", "internal/shard/posts.go:readNext", "internal/shard/posts.go:Next", "fnames.go:breadFnames", "fnames.go:abs", "internal/shard/index.go:readIix"]}
{"id": "C77", "title": "A query for limited entries is sound and ends", "statement": "Calling Query.Next with empty entries of any capacity (nil, zero, or more) always returns without a panic or an error other than end-of-file; every entry returned shows at least two consecutive documents of its blot; the number of entries a query returns is bounded, and asking on with a non-empty destination reports end-of-file.", "quantifier": "all index contents with fewer than 65536 shards, all sequences of calls, all destination lengths and capacities", "why_tests_cant": "states of several shards are overwritten by one another when entries fill up; termination needs a measure over all of them", "anchors": ["query.go:Next,fillBlot,advance,setMax"]}
{"id": "C78", "title": "A query for limited entries returns no document twice for a blot", "statement": "Whatever the capacity of the entries, a query returns no document of a blot twice.", "quantifier": "all index contents, all sequences of calls and capacities", "why_tests_cant": "needs several shards with particular counts modulo the capacity", "anchors": ["query.go:Next,fillBlot,advance"]}
{"id": "C79", "title": "A document that a query returns is searched in its own text", "statement": "FindBlot on a document that Get or Next has returned looks for the blot in the text of that document, and finds it there if the file is as it was indexed.", "quantifier": "all histories, all files, all sequences of calls, all slices given to Get and Next", "why_tests_cant": "needs a slice that is used again after its documents were loaded", "anchors": ["query.go:Get,fillBlot", "blot.go:Next", "index.go:docid2Doc,FindBlot,FindBlots"]}
{"id": "C80", "title": "A document can be loaded again as it was indexed", "statement": "Loading a document from the path and range under which the index has filed it gives the text that was indexed, if the file has not changed.", "quantifier": "all files of any size, all ranges, all trees given to the index command", "why_tests_cant": "needs files of more than 2^32 bytes", "anchors": ["doc.go:Load,NewDoc", "cmd/dupi/index.go:mkWalkFn"]}
{"id": "C81", "title": "Using an Indexer after Close is reported", "statement": "A call of Add or Close on an Indexer that has been closed returns with an error.", "quantifier": "all sessions, all documents, all schedules", "why_tests_cant": "a call that does not return has to be told from one that is slow", "anchors": ["indexer.go:Add,Close", "shatter.go:startShatter"]}
{"id": "C82", "title": "Close reports failing system calls", "statement": "Close returns nil exactly when every OpenFile, Write, WriteAt, Seek and Stat it makes, in all its goroutines, succeeds; and then all documents that were added can be found in the index.", "quantifier": "all sessions, all combinations of failing calls, all numbers of bytes that failing writes have written", "why_tests_cant": "fault positions", "anchors": ["indexer.go:Close,writeFiles", "config.go:Write", "dmd/adder.go:Close,flush", "internal/shard/indexer.go:Close,flushInd,flushIix", "fnames.go:write"]}
{"id": "C83", "title": "A failed Close does not lose what was in the index", "statement": "When Close returns an error after documents were appended to an index, the index can still be opened, and the documents of the earlier sessions can still be found.", "quantifier": "all histories, all combinations of failing calls", "why_tests_cant": "fault positions", "anchors": ["indexer.go:Close,writeFiles", "internal/shard/indexer.go:flushIix"]}
{"id": "C84", "title": "Calling Next again with the same entries", "statement": "Calling Query.Next again and again with the entries as the previous call left them, as one does with the buffer of a reader, returns the next blots with their documents, and at last end of file.", "quantifier": "all indexes, all states of a query, all entries", "why_tests_cant": "capacities that append happens to make; the queries of a test are few and their indexes small", "anchors": ["query.go:Next,fillBlot", "blot.go:Next"]}
{"id": "C85", "title": "An index open for reading keeps answering while others append", "statement": "While an Index is open, sessions of other processes may append to its files, as the lock lets them. Queries of the open Index go on giving at least the documents they gave before.", "quantifier": "all histories before and after the opening, all moments of a further session, all blots", "why_tests_cant": "two processes at once; whether a query is affected depends on which blots the new documents have", "anchors": ["index.go:OpenIndex", "query.go:Get", "fnames.go:abs", "dmd/t.go:Lookup", "internal/shard/index.go:Init"]}
{"id": "C86", "title": "What is opened is closed, and no goroutine is left", "statement": "After Close of an Index or Indexer, and after a failed attempt to open or create one, no file that was opened is still open and no goroutine that was started still runs.", "quantifier": "all outcomes of all system calls, all numbers of shards and workers", "why_tests_cant": "every call has to fail once at every place", "anchors": ["index.go:OpenIndex,Close", "indexer.go:IndexerFromConfig,openFromConfig,Close", "internal/shard/indexer.go:InitCreate,InitAppend,Close"]}
{"id": "C87", "title": "Errors of closing files are reported", "statement": "If File.Close or the release of the lock fails while an Index or Indexer is closed, Close returns an error.", "quantifier": "all outcomes of all system calls, all numbers of shards and workers", "why_tests_cant": "File.Close fails on full or remote file systems only", "anchors": ["index.go:Close", "indexer.go:Close", "lock/file.go:Close"]}
{"id": "C88", "title": "Documents listed under one blot have a word in common", "statement": "The documents that a query returns for one blot have a word in common.", "quantifier": "all histories, all documents, all blots", "why_tests_cant": "needs texts whose hashes cancel or collide", "anchors": ["blotter/circ.go:Blot", "shatter.go:do", "query.go:Get"]}
{"id": "C89", "title": "dupenron -o prints the records it reads", "statement": "dupenron -o prints the first -n records of the file as comma-separated values, and reports a file that it cannot open.", "quantifier": "all files, all -n", "why_tests_cant": "the output depends on its length against the size of a buffer", "anchors": ["cmd/dupenron/main.go:oEnron,main"]}
{"id": "C90", "title": "dupenron reads comma-separated values", "statement": "A file in the format of RFC 4180 with two fields in every record is read as these records, with line ends as newlines; a record with another number of fields is an error after the records before it; what the Writer writes is read back; for all bytes reading comes to an end.", "quantifier": "all files", "why_tests_cant": "unbounded nesting of quotes, line ends and commas", "anchors": ["cmd/dupenron/main.go:csvReader", "cmd/dupenron/main.go:indexEnron"]}
{"id": "C91", "title": "dupenron keeps the records before an error", "statement": "Documents that dupenron has added before an error are in the index it leaves; without an error, queries of the index find exactly the records whose text after the header has the blot.", "quantifier": "all files, all schedules, all blots", "why_tests_cant": "depends on the schedule of the goroutines that dupenron leaves behind", "anchors": ["cmd/dupenron/main.go:main,indexEnron", "indexer.go:Close"]}
{"id": "C92", "title": "A document number leads to its document", "statement": "After any history, the number of the i-th document ever added leads to the absolute form of its path and its range, and a number beyond the last document to an error.", "quantifier": "all histories, all configurations, all numbers", "why_tests_cant": "unbounded histories; the path table and the records are in two files written at different times", "anchors": ["index.go:docid2Doc", "dmd/t.go:Lookup", "fnames.go:abs"]}
{"id": "C93", "title": "Different documents have different numbers", "statement": "In a session that adds any number of documents, different documents have different numbers, and the number of a document leads to its record.", "quantifier": "all numbers of documents", "why_tests_cant": "takes more than four thousand million documents", "anchors": ["dmd/adder.go:Add,flush"]}
{"id": "C94", "title": "Configurations make the same again", "statement": "What Config of a blotter or a filter returns makes, by FromConfig, a blotter or filter of the same size and kind, whatever it has been used for; other names are refused.", "quantifier": "all sizes, all words", "why_tests_cant": "all sizes", "anchors": ["blotter/circ.go:Config", "blotter/interleaved.go:Config", "blotter/config.go:FromConfig", "attic/ibloom/fnv32.go:Config", "attic/ibloom/config.go:FromConfig"]}
{"id": "C95", "title": "A query that runs while others append gets the earlier documents", "statement": "A query of an open index for up to as many documents as a blot had when the index was opened gives these documents, however many sessions append in the meantime and whenever each of its reads happens, even if a single read sees bytes of different moments.", "quantifier": "all histories, all later sessions and schedules, all moments of every single read", "why_tests_cant": "depends on the interleaving of the reads of one process with the writes of others", "anchors": ["query.go:Get", "internal/shard/posts.go:readNext,readVarintAt", "dmd/t.go:Lookup", "internal/shard/indexer.go", "dmd/adder.go:flush"]}
{"id": "C96", "title": "A stopped append session leaves an index that answers queries and can be appended to", "statement": "However an append session is stopped, if the index opens afterwards then a query for all documents with a blot gives the documents of the earlier sessions, also in readers that have the index open, and an indexer can be opened to append again.", "quantifier": "all histories, all appended documents, all moments at which the session is stopped", "why_tests_cant": "needs a crash between two particular writes of one flush", "anchors": ["internal/shard/poster.go:flushTo,readToLink", "internal/shard/posts.go:readNext", "query.go:Get", "indexer.go:OpenIndexer"]}
{"id": "C97", "title": "Documents added by several goroutines at a time get numbers of their own", "statement": "When goroutines call Indexer.Add at the same time, every document gets a number of its own under which its record is kept, no call panics, and Close ends afterwards.", "quantifier": "all interleavings of the accesses of the calls, all states of the adder, all documents", "why_tests_cant": "a data race shows in few interleavings", "anchors": ["indexer.go:Add,doc2Id,Close", "dmd/adder.go:Add,flush", "shatter.go:send"]}
{"id": "C98", "title": "What an index tells after a stopped append session is right", "statement": "However an append session is stopped, even within a write: if the index opens afterwards and a query does not fail, then the query adds to the caller's slice a beginning of the list of the documents with the blot, those of the earlier sessions before those of the stopped one, each with its path and offsets; and if there is room it has all those of the earlier sessions.", "quantifier": "all histories, all appended documents, all moments at which the session is stopped, all blots and slices", "why_tests_cant": "needs a crash at every byte of every write", "anchors": ["internal/shard/poster.go:flushTo,AddPost", "internal/shard/indexer.go:Serve,Close", "dmd/adder.go:Add,flush", "fnames.go:write", "query.go:Get", "index.go:OpenIndex,docid2Doc"]}
{"id": "C99", "title": "An index can be appended to after a stopped append session", "statement": "If an append session is stopped and the index still opens for appending, then after a further session that ends well queries tell the documents with the blot, as they do after sessions that all ended well.", "quantifier": "all histories, all documents of the stopped and of the further session, all blots", "why_tests_cant": "needs a crash between two writes of Close, followed by another session", "anchors": ["internal/shard/indexer.go:Close,flushInd,flushIix,read", "internal/shard/poster.go:initAppend,readToLink,AddPost", "query.go:Get"]}
{"id": "C100", "title": "An index can be appended to after a Close that failed", "statement": "If Close of an append session reports an error and the index still opens for appending, then after a further session that ends well queries tell, for the documents of that session, their own paths and offsets.", "quantifier": "all histories, all documents of the failed and of the further session, all blots", "why_tests_cant": "needs a write that fails after some of its bytes (a full disk), followed by another session", "anchors": ["dmd/adder.go:NewAdder,Close,flush", "dmd/t.go:Lookup", "indexer.go:Close,OpenIndexer", "query.go:Get"]}
{"id": "C101", "title": "What Next returns is what Get returns", "statement": "In any index that opens, every entry that Next returns (with unlimited entries) has two documents or more, and they are what Get answers for its blot. If no list is shorter than two where the table says two or more, no blot is returned twice and at the end of file all have been returned; so it is after an append session that was stopped anywhere, for the blots of two documents of earlier sessions.", "quantifier": "all files that open, all sequences of calls of Next, all blots, all points at which an append session is stopped", "why_tests_cant": "quantifies over damaged files and over all states of the walk through several shards", "anchors": ["query.go:Next,Get,fillBlot,advance,setMax", "internal/shard/index.go:readIix,ReadStateAt,ReadStateFor"]}
{"id": "C102", "title": "An index that opens for appending opens for reading", "statement": "If OpenIndexer succeeds on the files of an index, so does OpenIndex.", "quantifier": "all files of an index directory", "why_tests_cant": "quantifies over all contents of all files, among them numbers written with too many bytes, which no writer of the program makes", "anchors": ["internal/shard/poster.go:initAppend", "internal/shard/index.go:readIix", "dmd/adder.go:NewAdder", "dmd/t.go:New", "indexer.go:OpenIndexer", "index.go:OpenIndex"]}
{"id": "C103", "title": "Creating an index can be tried again", "statement": "When IndexerFromConfig fails, the index can be created by a later attempt, in which nothing fails.", "quantifier": "all configurations, all combinations of failing calls", "why_tests_cant": "every call has to fail once at every place, and the later attempts are arbitrary", "anchors": ["indexer.go:IndexerFromConfig", "internal/shard/indexer.go:InitCreate", "internal/shard/poster.go:initCreate", "dmd/adder.go:NewAdder", "shatter.go:startShatter"]}
{"id": "C104", "title": "A session works with the configuration of the index it opens", "statement": "An indexer opened with OpenIndexer works with the configuration of the index whose files it opens, whatever others have done to the directory while it was being opened.", "quantifier": "all histories, all configurations read before the lock is held, all documents appended", "why_tests_cant": "the index has to be replaced between two calls of one function, and the answers go wrong only for later queries", "anchors": ["indexer.go:OpenIndexer", "indexer.go:openFromConfig", "config.go:Write", "index.go:OpenIndex"]}
{"id": "C105", "title": "A query goes on after a read that failed", "statement": "A query whose reads fail reports an error or gives the answer it gives when none fails; and calling Next (or Get) again after an error, when reads work again, gives that answer.", "quantifier": "all indexes, all states of a query, all patterns of failing reads", "why_tests_cant": "a read of a file that is open fails only on a faulty device or network file system, and the answer of the later call looks complete", "anchors": ["query.go:Get", "query.go:Next", "query.go:fillBlot", "blot.go:Next", "index.go:docid2Doc", "internal/shard/posts.go:readNext"]}
{"id": "C106", "title": "What Close has finished survives a power failure", "statement": "After sessions that appended to an index have finished without an error, the machine stops; when it is up again the index opens and every query gives the documents of all sessions.", "quantifier": "all configurations, all histories of sessions and further sessions, all choices of which of the files that are not written synchronously (dmd, files.fnm, each shard's table) are as before those sessions, all blots", "why_tests_cant": "needs the machine to lose power after Close and before the operating system has written its cache", "anchors": ["indexer.go:Close", "internal/shard/indexer.go:read", "internal/shard/indexer.go:flushIix", "dmd/adder.go:flush", "indexer.go:writeFiles"]}
{"id": "C107", "title": "The files of an index are its own", "statement": "The files of an index are in its directory under names of their own, different from each other, from its lock file and from the files of every other index; opening or creating an index changes no other file, and opening it by its path finds what was written.", "quantifier": "all roots, with any slashes, dots and parents, all working directories, all file systems without links, all shard numbers, all histories of sessions", "why_tests_cant": "tests use one root in an empty temporary directory", "anchors": ["config.go:Path", "config.go:LockPath", "config.go:FnamesPath", "config.go:PostPath", "lock/file.go:New", "index.go:OpenIndex", "indexer.go:OpenIndexer"]}
{"id": "C108", "title": "index adds the files it is given and not those of the index", "statement": "The documents that dupi index adds are files that its arguments name or contain; the files of the index that is being made or added to are not among them, and a document of the index stays as it was indexed while the command runs.", "quantifier": "all file systems without links, working directories, roots, arguments, numbers of shards and histories of the index", "why_tests_cant": "needs an index inside of the directory that is indexed", "anchors": ["cmd/dupi/index.go:Run", "cmd/dupi/index.go:mkWalkFn", "indexer.go:IndexerFromConfig", "cmd/dupi/dupi.go:getIndexRoot"]}
{"id": "C109", "title": "Indexes in one file system do not disturb each other", "statement": "If indexes in different directories of one file system are created, appended to, queried and removed by any number of processes, at most one session per index at a time, in any order and with sessions of different indexes overlapping, some of them stopped at any time, then every index that has not been removed since it was created, none of whose sessions was stopped and for which no session is under way has the files that its own sessions since then alone would have left, can be opened for appending and reading, and queries tell exactly the documents of these sessions.", "quantifier": "all file systems without links, numbers of indexes, roots (also one inside of another, or called like the lock file of another), working directories, orders of events, documents, and whatever other programs do outside of the indexes and their lock files", "why_tests_cant": "needs all interleavings of sessions of several indexes, and roots whose files or lock files could have the same names", "anchors": ["config.go:LockPath", "config.go:PostPath", "config.go:FnamesPath", "indexer.go:IndexerFromConfig", "indexer.go:openFromConfig", "indexer.go:Close", "index.go:OpenIndex", "lock/file.go:New", "remove.go:RemoveIndex"]}
{"id": "C110", "title": "On Windows writers have an index alone, and readers share it", "statement": "With lock/windows.go, whoever creates or appends to an index has it alone, readers can have it open at the same time, Unlock and Close give the lock up so that the next waiting user can take it, and a user whose opening fails does not keep the lock.", "quantifier": "all numbers of users creating, appending to or reading any indexes, all schedules, failing calls included", "why_tests_cant": "needs all schedules of any number of processes, and the semantics of LockFileEx", "anchors": ["lock/windows.go:Lock", "lock/windows.go:Unlock", "lock/windows.go:LockShared", "lock/file.go:Close", "indexer.go:IndexerFromConfig", "indexer.go:openFromConfig", "index.go:OpenIndex"]}
{"id": "C111", "title": "What a query gives while others append is right", "statement": "An index is open for reading while other sessions append to it, and each read of a query sees the files as they are at some moment of these sessions. If the query gives documents, they are the first so many of the documents that have the blot after these sessions, in order, each with its path and range; and they include those that had it when the index was opened, unless the room for the answer was filled before. The same holds of every entry that calls of Next with unlimited entries return; they return no blot twice, and at the end of file they have returned every blot that had two documents when the index was opened.", "quantifier": "all configurations, histories, sequences of append sessions, schedules inside of each, moments of each read in any order (appends seen in part, link overwrites whole or not at all), blots and sizes of the answer", "why_tests_cant": "needs every read of a query at every moment of every schedule of other sessions", "anchors": ["query.go:Get", "query.go:Next", "query.go:fillBlot", "internal/shard/posts.go:readNext", "internal/shard/posts.go:next", "internal/shard/poster.go:flushTo", "internal/shard/indexer.go:Serve", "internal/shard/indexer.go:flushInd", "dmd/t.go:Lookup", "index.go:OpenIndex"]}
{"id": "C112", "title": "Configuration files are read as JSON says", "statement": "A configuration file is read exactly if it is a JSON text (the grammar of RFC 8259, arrays and objects nested at most 10000 deep) whose value is null or an object whose members with the names of the fields (case does not matter) are strings, int64 integers and objects as the fields are; the configuration read has these values (the last one given counts, null counts as not given, objects of the same name are put together, what is missing is 0 or empty). A text has one value. What Write makes of a new file, each part of the output of extract -json and the output of inspect -json are such texts.", "quantifier": "all files that are UTF-8; all configurations; for the output all histories, configurations and UTF-8 paths", "why_tests_cant": "no test reads a configuration other than one just written; the grammar has infinitely many texts", "anchors": ["config.go:ReadConfig", "config.go:Write", "cmd/dupi/extract.go:Run", "cmd/dupi/inspect.go:Run"]}
{"id": "C113", "title": "The order of adding does not matter", "statement": "Two indexes of the same documents with the same blotter and number of shards, however the documents were ordered and divided into sessions and whatever the other settings were, give the same answers: each Get gives the same documents up to their order (in the same order if the documents were added in the same order), extract lists the same blots with the same documents for every -sigma, the statistics are the same and so is what inspect prints, like names the same documents, and unblot prints the same texts, each with the same documents, if the files of the documents can be read.", "quantifier": "all pairs of histories with the same documents, all configurations with the same blotter and shards, all blots, all values of -sigma, all queried files, all blots given to unblot", "why_tests_cant": "no test compares two indexes; orders, divisions into sessions and schedules of the goroutines are unboundedly many", "anchors": ["query.go:Get", "query.go:Next", "index.go:Stats", "cmd/dupi/extract.go:Run", "cmd/dupi/inspect.go:Run", "cmd/dupi/like.go:doFilename", "index.go:FindBlots", "cmd/dupi/unblot.go:Run"]}
{"id": "C114", "title": "An index takes space in proportion to what is in it", "statement": "After any sessions the meta data file has 12 bytes for each document and 12 more; the file of paths has the names of all files and directories on the way to the documents, each once, with 2 to 10 bytes more for each of them (and 1 to 5 at the start); each shard has a table of 65536 entries of 6 to 19 bytes; and the posting files together have 1 to 15 bytes for each different pair of a document and a blot (modulo the number of slots), so at most 7.5 times the length of the text added.", "quantifier": "all histories, configurations and documents, all schedules of the goroutines", "why_tests_cant": "no test looks at the length of the files of an index; histories and documents are unboundedly many", "anchors": ["internal/shard/poster.go:flushTo", "internal/shard/indexer.go:flushIix", "dmd/adder.go:flush", "fnames.go:write", "indexer.go:Close"]}
{"id": "C115", "title": "A session that adds nothing changes nothing", "statement": "Opening an index for appending and closing it again without adding a document leaves all its files as they were. More generally the files of an index, the configuration apart, depend byte for byte only on the documents that each session added, the sessions that added none left out, the blotter and the number of shards, and not on the schedules, the other settings or empty sessions; the records of documents and paths depend only on the documents in order, not on how they were divided into sessions.", "quantifier": "all histories, pairs of histories, configurations and documents, all schedules of the goroutines", "why_tests_cant": "no test compares the files of two indexes; histories and schedules are unboundedly many", "anchors": ["indexer.go:OpenIndexer", "indexer.go:Close", "internal/shard/indexer.go:InitAppend", "internal/shard/poster.go:initAppend", "internal/shard/poster.go:readToLink", "fnames.go:readFnames", "dmd/adder.go:NewAdder"]}
{"id": "C116", "title": "dupenron does what its command line says", "statement": "dupenron takes -n, -s, -o, -r and -pprof as package flag reads them, with the defaults 16, 10, false and dupi.idx. Without -o it makes an index in -r with -n shards and sequences of -s words, of the records of the file that is its first argument, and prints a count after each 10000 records. When it cannot, it leaves no index.", "quantifier": "all argument lists, all files, all schedules of the goroutines", "why_tests_cant": "dupenron has no tests; argument lists and files are unboundedly many", "anchors": ["cmd/dupenron/main.go:main", "cmd/dupenron/main.go:indexEnron", "cmd/dupenron/main.go:csvReader", "indexer.go:CreateIndexer", "config.go:NewConfig"]}
{"id": "C117", "title": "The String methods show what they are of", "statement": "The text of a post is <d,h> with the number of its document in decimal and its blot in hexadecimal, so different posts have different texts. Different tokens have different texts. The text of a path set has one line for each number it has given, in order, and the line of the number of a path added is that path made absolute and cleaned.", "quantifier": "all posts, all tokens with positions below 2^32, all sequences of paths added to a new path set", "why_tests_cant": "the methods have no tests; posts, tokens and path sets are unboundedly many", "anchors": ["post/t.go:String", "token/t.go:String", "fnames.go:String"]}
{"id": "C118", "title": "Paths added by several goroutines at a time keep their numbers", "statement": "When goroutines call Add of one indexer at a time, each call of addPath ends and gives a number whose path is the path it was called with, made absolute and cleaned; numbers given before keep their paths.", "quantifier": "all sequences of paths added before, all paths added at a time, all interleavings of the accesses to the shared path set, all growth policies of append", "why_tests_cant": "no test adds documents from several goroutines; which accesses interleave is up to the scheduler", "anchors": ["fnames.go:addPath", "indexer.go:doc2Id", "indexer.go:Add"]}
{"id": "C119", "title": "Estimate gives filters that work", "statement": "For a number n of elements and a false positive rate, Estimate gives a number m of bits that is a positive multiple of 8, not less than n |ln fpr| / (ln 2)^2 up to rounding and at most 8 1/2 more, and a number of hashes that is m / n ln 2 to the nearest integer and at least 1, so that a filter of this size (below 2^32 bits) takes elements and reports those that were added, and not all others.", "quantifier": "all numbers of elements from 1 to 2^40, all rates, whatever approximation of the logarithm math.Log computes", "why_tests_cant": "the test prints the estimate for one pair of values and checks nothing of it", "anchors": ["attic/ibloom/estimate.go:Estimate", "attic/ibloom/fnv32.go:Has"]}
{"id": "C120", "title": "Documents added by several goroutines at a time keep their paths", "statement": "When goroutines call Add of one indexer at a time, the record made for each document has its start and end and the number of its own path; documents that were in the index before keep their records and paths.", "quantifier": "all sequences of paths added before, all documents added at a time, all interleavings of the accesses to the path set and the record buffer, all growth policies of append", "why_tests_cant": "no test adds documents from several goroutines; which accesses interleave is up to the scheduler", "anchors": ["indexer.go:doc2Id", "indexer.go:Add", "fnames.go:addPath", "dmd/adder.go:Add"]}
{"id": "C121", "title": "Goroutines that share a Query divide the blots among them", "statement": "When goroutines call Next of one Query at a time, each blot with several documents is given to one of them with all its documents, as when one goroutine makes the calls.", "quantifier": "all indexes, all destinations, all interleavings of the reads, lookups and advances", "why_tests_cant": "no test shares a Query; which steps interleave is up to the scheduler", "anchors": ["query.go:Next", "query.go:fillBlot", "query.go:advance", "internal/shard/read_state.go:Next"]}
