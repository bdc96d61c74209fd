# Formal model of go-fasttld in Rocq (Coq 8.16.1)

## Approach

The Go code in /repo is modelled function by function as total, computable Gallina
functions over `list N` (byte strings) and `Z` (Go `int`).  Three decisions matter:

* **Panics are values.**  Every Go slice expression `s[a:b]` and index `s[i]` whose
  bounds are computed at run time goes through `slice`/`index`, which return `Panic`
  when Go would.  Loops that are not structural run on fuel and return `OutOfFuel`.
  C01 is the theorem that `Extract` never evaluates to either.
* **Strings are arbitrary bytes.**  UTF-8 decoding is modelled as in
  `unicode/utf8` (forward `DecodeRune`, backward `DecodeLastRune`, errors of width 1),
  so that all theorems hold for malformed UTF-8 too.
* **Externals are parameters.**  The IDNA library (`idna.ToUnicode`,
  `idna.ToASCII`, `idnaToPuny.ToASCII`) is a universally quantified function
  argument; file system, clock and network are an explicit world value.  (C61-C63 use a model
  of the library's Punycode profile.)

## Layout (rocq/theories)

Model (what the code does; every definition cites the Go lines it models):

| file | content |
|---|---|
| `Base.v` | byte strings, outcomes (`Ret`/`Panic`/`OutOfFuel`), slicing, the parts of strings, strconv, net/url used |
| `Utf8.v` | unicode/utf8 decoding, `range` over a string |
| `Str.v` | strings.go |
| `Net.v` | net.go |
| `Trie.v` | trie, nestedDict, the trie of a rule list (fasttld.go:74-139) |
| `Extract.v` | FastTLD.Extract (fasttld.go:141-400) as a function of a trie |
| `Psl.v` | parsing of list files (psl.go:24-100, 168-173) |
| `World.v` | programs with effects; memory; file system with descriptors, clock, network, crash points |
| `Update.v` | trieConstruct, checkCacheFile, update, Update, New (psl.go, fasttld.go:101-139, 403-434) |
| `Calls.v` | Extract as a program that reads memory step by step; goroutines |
| `Heap.v` | tries as nodes with pointers; nestedDict, marking and Extract access by access; goroutines on this memory |
| `Print.v` | print.go and cmd/fasttld/extract.go |
| `Cli.v` | cmd/main.go, cmd/fasttld/root.go, flags of extract.go; how cobra and pflag read arguments |
| `Procs.v` | several processes with goroutines on one disk; reads and writes piece by piece; processes are killed |
| `Logs.v` | New, Update and Extract with what they close and what they log |
| `Weak.v` | the calls of `Heap.v` on a memory that orders nothing by itself |
| `Table.v` | hashmap.Map as an open-addressing table with 16-bit distances, tries made of such tables |
| `Demo.v` | the program examples/demo.go |
| `RuneSet.v` | the sets of runes of the library intset, makeRuneSet (strings.go:76-89) |
| `Wide.v` | Extract with ints of 32 or 64 bits, strconv.Atoi as the library computes it |
| `Colour.v` | the bytes written for coloured output (fatih/color) |
| `Steps.v` | Extract again, counting the iterations of its loops |
| `LoadSteps.v` | trieConstruct again, counting steps |
| `Builtin.v` | the text of hardcodedPSL (fallback.go:9-15701), generated by `tools/gen_builtin.py`; the tables used by C53 |
| `Idna.v` | golang.org/x/net/idna: Punycode, ToASCII and ToUnicode of the Punycode profile (used by C61-C63 and C112) |
| `Gen.v` | data/gen.go, the generator of fallback.go |
| `RepoTests.v` | the repository's own test tables, run on the model (tests, not proofs) |

Specifications (vocabulary of the theorem statements; none of it is used by the model):
`Chars.v`, `Host.v`, `Addr.v`, `UrlSpec.v`, `Rfc.v`, `RuleSpec.v`, `ListSpec.v`,
`UpdateSpec.v`, `PrintSpec.v`, `BuiltinSpec.v`, `RelSpec.v`, `IdnaSpec.v`, `GenSpec.v`,
`ErrSpec.v`, `NewSpec.v`, `LibSpec.v`, `ExactSpec.v`, `RaceSpec.v`, `FootSpec.v`, `CostSpec.v`,
`FinishSpec.v`, `DivergeSpec.v`, `SplitSpec.v`, `LinSpec.v`, `OrderSpec.v`, `BrowserSpec.v`,
`CrashSpec.v`, `LocalSpec.v`, `HeapSpec.v`, `CliSpec.v`, `ProcSpec.v`, `LogSpec.v`,
`WeakSpec.v`, `TableSpec.v`, `DemoSpec.v`, `SeenSpec.v`, `WideSpec.v`, `ColourSpec.v`, `SizeSpec.v`.

Statements: `PropStr.v` (C44, C45), `PropUrl.v` (C01-C05, C07-C13, C15-C20, C27, C28, C50),
`PropRules.v` (C06, C14, C19-C26, C29, C30, C48, C49), `PropPsl.v` (C31-C42, C51), `PropCalls.v`
(C43, C52), `PropPrint.v` (C46, C47), `PropBuiltin.v` (C53-C55), `PropRel.v` (C56-C58),
`PropEnd.v` (C59, C60), `PropIdna.v` (C61-C63), `PropGen.v` (C64),
`PropErr.v` (C65-C67),
`PropLib.v` (C68, C69), `PropExact.v` (C70-C76), `PropCache.v` (C77),
`PropRace.v` (C78), `PropFoot.v` (C79, C80),
`PropFinish.v` (C81), `PropDiverge.v` (C82), `PropSplit.v` (C83, C84), `PropLin.v` (C85), `PropSpell.v` (C86), `PropOrder.v` (C87), `PropBrowser.v` (C88, C89),
`PropRuleChars.v` (C88, C90), `PropPath.v` (C91), `PropCrash.v` (C92),
`PropLocal.v` (C93, C94), `PropHeap.v` (C95), `PropCli.v` (C96, C97), `PropProc.v` (C98), `PropLog.v` (C99, C100),
`PropWeak.v` (C101, C102), `PropWeakRace.v` (C103), `PropTable.v` (C104), `PropDemo.v` (C105), `PropSeen.v` (C106), `PropRuneSet.v` (C107), `PropWide.v` (C108), `PropColour.v` (C109), `PropSteps.v` (C110), `PropSize.v` (C111), `PropLoad.v` (C112).  Each theorem is closed by `exact` of a lemma, is followed by
an example meeting its hypotheses, and by `Print Assumptions` at the end of the file.
`ExampleBase.v`, `ExampleDisk.v` are the concrete lists, disks and networks of the examples.

Everything else (`Walk.v`, `Parse.v`, `*Facts.v`, `*Proofs*.v`) is proof.  The route: `Walk.v`
and `Parse.v` give an index-free form of Extract; `WalkFacts.v`, `ParseFacts.v` prove that the
index arithmetic of the model computes it (in particular never panics); `UrlFacts.v`,
`ExtractFacts.v`, `OutcomeFacts.v` relate it to the specifications.

`tools/gen_properties.py`, `tools/gen_manifest.py` and `tools/status.py` write
properties.jsonl and MANIFEST.json; `tools/gen_tests.py` writes RepoTests.v,
`tools/gen_builtin.py` writes Builtin.v.

## Plan per property

| id | model and proof |
|---|---|
| C01 | outcome of `extract` is `Ret`; index invariants of the suffix loop via the unique decomposition of a host in labels and separators; fuel = number of labels + 1 |
| C02 | spec of `fastTrim` from the UTF-8 self-synchronisation lemmas |
| C03/C04 | scanner = longest match of a grammar; C04 refuted by a witness |
| C05 | first/last occurrence lemmas |
| C06 | reassembly theorem over the refined (list based) form of Extract |
| C07/C08 | model of strconv.Atoi; C08 refuted (`+80`) |
| C09 | relational theorem, two runs |
| C10/C11 | grammar of literals as an inductive specification, equivalence with the loop; C11 refuted |
| C12-C14 | grammar equivalence; classification; C14 needs `no rule ends in an all-digit label`, full statement refuted |
| C15-C18, C50 | case analysis over the refined form |
| C19/C20 | character class theorem for `hasInvalidChars`; both full statements refuted because the code truncates runes to bytes, provable for characters whose low byte is not alphanumeric |
| C21 | walk over rule set = suffix computed by Extract |
| C22/C23 | PSL algorithm as independent spec; equality under a regularity condition; refutations for co.za, dead ends, wildcard siblings |
| C24-C28, C48, C49 | relational theorems on the refined form; C25, C48 refuted |
| C29-C33 | trie as set of paths; list parsing lemmas |
| C34-C43 | world model with file contents, ages, download outcomes, crash points; C40, C41 refuted (no truncation) |
| C44, C45 | bit-level lemmas; UTF-8 lemmas |
| C46, C47 | output as list of printed segments |
| C53, C55 | the rules of the built-in list are computed in Coq (`Survey.v` indexes all prefixes of rules and finds where the list is not regular, proved sound and complete); C22 applies elsewhere, the irregular places are treated one by one |
| C54 | the walk asks the rules only for paths starting with the TLD |
| C56, C57 | on the refined form: the parts besides the host are only copied; empty labels on the right are stripped before the walk |
| C58 | the walk looks at no label left of the domain; the checked characters of the shorter host are a suffix of those checked before, except that a hyphen comes to stand at the beginning |
| C59 | New without a read falls through to the built-in list with an empty path, which Update refuses (C38) |
| C60 | Update leaves the cache file fresh with the text it then reads; New finds this file and reads the same text |
| C61 | the decoder undoes each pass of the encoder (`PunyProofs.v`: invariant relating the inserted characters to those below the current code point); the built-in rules are computed |
| C62 | the rules come in pairs of Unicode and ASCII form, so that the walk finds a path iff it finds its ASCII form; acceptance: the labels looked at are the same, and Punycode adds only letters, digits and inner hyphens |
| C63 | case analysis over the refined form; a byte that is no digit stops the decoder |
| C64 | the template's text is a Go file by construction; the back quote that ends the literal is the first one |
| C65 | the labels the walk looks at, by induction on the walk; the loop of hasInvalidChars over runes, characterised for all byte strings |
| C66 | the scanner for brackets, by cases on the first bracket, the second and the rest |
| C67 | C65, C66 and the lemmas on every other exit, put together into an equivalence; consistency follows from C01 |
| C68 | Case analysis of the runs of New and Update on the disk (`new_runs`, `update_runs`), the cache file followed through open, seek and write; uniqueness case by case |
| C69 | Forward simulation: every view has an extractor in memory with its path, flag and the trie of its rules; New and Update by C68, Extract by C67 |
| C70, C72, C73 | The cases of C03, C08 and C11 that were left, each shown to contradict the other side |
| C71, C74 | Where a label is dropped: the number of non-empty labels of the host differs from that of the reported components, whatever separators are put between them |
| C75, C76 | C65's text that is checked, label by label: UTF-8 is self-synchronising, so that a character of the host lies in one label |
| C77 | From C68; the run of Update up to the write is constructed |
| C78 | Invariant of the pool: a running call writes only nodes of a trie no other call and no extractor knows |
| C79 | Invariant over the programs, for every answer: what may be done next depends on the operations so far |
| C80 | Induction over the loop; a node that is entered has children, so that its path is shorter than a rule |
| C81 | The leaves of the programs, for every answer of the environment; a step replaces one program of the pool by a later one of it, which is well-founded; C43 for Extract |
| C82 | Both sides by the same induction along the labels: the walk of C21 and the longest matching rule; the built-in list by computation |
| C83, C84 | C21 determines the two places of the division and conversely; the walks of the two spellings compared label by label |
| C85 | a simulation: New takes effect just before its end, Update when it stores the list, a failing Update just before its end, Extract when it reads the list field |
| C86 | the walks of the host and of its decoded form compared as for C83, and C82 for the latter |
| C87 | an invariant of the machine of C85: which call left each extractor's text, and which Updates have taken effect |
| C88 | the cases of Extract, and what each state of the URL Standard's parser does with host, port and user information of that form |
| C89 | the same for net/url, whose authority is shown to begin where the scheme of Extract ends |
| C90 | the labels that C65 says are not checked are the beginning of a rule; bytes below '%' survive decoding |
| C91 | checkCacheFile trims the path, os.ReadFile does not: the two files are told apart |
| C92 | induction on the sources in both directions: every text is reached by letting the writes fail |
| C93 | the walk over the labels is the same with and without the rule, as are the empty labels seen and the text checked; several rules by induction, since a new part only gets longer |
| C94 | C93; a new part that is no rule is a gap (C53) or below a wildcard |
| C95 | simulation both ways between `Heap.v` and `Calls.v`; the change takes effect at its last access; C78 keeps others away meanwhile |
| C96 | pflag's loops produce exactly the assignments of the grammar in `CliSpec.v`; both scans of cobra stop at the same argument |
| C97 | C96 and C47 |
| C98 | an invariant of the machine: each task has the part of its list it is writing at the offset of its own handle, what a task has read is a patchwork; conversely each byte is put there by a process that is killed in time |
| C99 | each program closes what it opens, shown along its text; a relation to the programs without closing and logging carries the other theorems over |
| C100 | the log of each function from its events, read off the run; for Extract, the log for ToPunycode is the IDNA error of another library, so that C63 and C67 apply |
| C101 | simulation: every object a running call can reach is either its own or was last written in a call that ended before it began, so that the view of the call fixes its value |
| C102 | the walk through nodes with arbitrary answers is that through a trie made from the answers; only "*" is asked for twice |
| C103 | the simulation of C101 for New, Update and a chosen set of Extracts; other Extracts write nothing, so that their reads may be anything |
| C104 | invariant of a table: every entry is as far from its own bucket as its distance says, and every bucket on the way is at least as far from its own; 16 bits are enough for 65535 entries; then a relation between tries of tables and tries |
| C105 | New and Update return with complete lists (C43, C59), Extract returns (C01), PrintRes shows (C46); with the built-in list, the ten results are computed |
| C106 | the simulations of C103 (weak memory by ordered memory) and C95 (pointers by whole tries) with what is seen of every step, then C85 |
| C107 | invariant of the set: every bucket is increasing, and a rune is in the set iff it is in the bucket its bits select |
| C108 | whatever the program with unbounded integers returns, the one that wraps around returns: positions stay below the length since no slice panics, numbers below the limits of the loops |
| C109 | induction over the written pieces with the state of a terminal; every component is cut out of the URL |
| C110 | erasure of the counter; the separator search of a label costs at most the bytes between two separators, so that the sum telescopes |
| C111 | keys of a node are distinct (invariant of insertion); the paths of the trie are a list without duplicates |
| C112 | the steps of a rule are bounded by its length, those of a line by what it adds to the lists; Punycode has a bounded number of digits per rune |

## Trusted base

* Coq 8.16.1's kernel (including its virtual machine, used by `vm_compute` in examples, in
  refutations and for finite facts such as membership in the fixed character sets).
* `Print Assumptions` reports "Closed under the global context" for every theorem in the
  `Prop*.v` files: no axiom is used, neither of the standard library nor of our own.
* The correspondence between the Go code and the model files listed above, which was
  established by reading; `RepoTests.v` runs the repository's test tables on the model as a
  check of the transcription.
* That the specifications say what the English properties say.

## What is modelled, and how faithfully

Modelled line by line: strings.go, net.go, fasttld.go (all functions), psl.go except
`getCurrentFilePath` (used only by tests), print.go, the body of the extract command,
data/gen.go.

Go language and library:

* `int` is `Z` in all files but `Wide.v`, where the results of additions, subtractions and
  multiplications of Extract wrap around.  C108 derives that the two agree.  In New and Update
  the code adds only in the loop of `reverse`.
* Strings are lists of numbers; the theorems hold for all lists, byte strings are those with
  elements below 256.  Strings of the source code are given by their code points and encoded.
* `intset.Rune` is a list with membership in all files but `RuneSet.v`, where it is the set of the
  library (written from memory, the size of a bucket is a parameter); C107 derives that the two
  agree.  `hashmap.Map` is an association list in all files but
  `Table.v`, where it is the table of the library (written from memory, since the library is not
  part of /repo; the hash function is a parameter, Delete is not modelled).  C104 derives that the
  two agree for up to 65535 keys.  In `Trie.v`, `World.v`
  and `Calls.v` the trie is a tree value at its root address, inserted into at once.  C95 derives
  this from `Heap.v`, where nodes point to each other and every access is a step of its own.
  There, nodes are named by the trie they are allocated for and a number; a map access and the
  visit of all entries of the root by `Scan` are one step.
* `idna.ToASCII`, `idna.ToUnicode`, the punycode profile, `strconv.Quote` (in the message of
  url.EscapeError) are parameters: theorems hold for every function.
* `strings.TrimSpace`, `strings.Split`, `url.QueryUnescape`, `unicode/utf8`, `strconv.Atoi`
  are modelled by their definitions.
* Log messages and the closing of files and response bodies are in `Logs.v` only, which is
  related to the other models by `C99_new_same` and `C99_update_same`.  The texts of errors and
  the time stamps of the log are not modelled, errors of Close are ignored as in the code, and
  reading a body is part of the download.
* Not modelled: memory exhaustion, time taken.

Environment (New, Update):

* Theorems "in any environment" (`runs step` for every `step`) assume nothing about the answers
  of file system, network and clock.
* Theorems about `disk_step` assume a file system used by nobody else, in which a path leads
  to one object (through links or relative names; `disk_ok` says that `filepath.Abs` does not
  change the object).  Seeking and writing may fail at any point, a failed write may have
  written any prefix, created files may be unreadable, the clock moves forward arbitrarily,
  the network answers arbitrarily (no answer, any status, any body, truncated body).
* `disk_during` gives the states visible after a crash: any prefix of a write may have arrived.
  Writes reach the disk in order; loss of buffered data after a completed write (no fsync in
  the code) is not modelled.
* `http.Get` and reading the body are one operation; redirects, TLS and timeouts are inside it.
* The age comparison in hours with a float64 is exact (comment at `psl_max_age`), so ages are
  whole nanoseconds.
* The built-in list is a parameter of the theorems except C53 and C55.  Those are about the real
  text; they assume of idna.ToASCII that it leaves the ASCII lines of this text alone and
  converts the 457 other rules as listed in `unicode_rules` (`idna_on_builtin`; the listed
  results were computed with Python's punycode codec).  C61_builtin proves this of the model
  of the library.
* data/gen.go: text/template is trusted to write the fields as they are (time.Time as its String
  method prints it, without line feed); os.Create truncates.  `go_file` in `GenSpec.v` is our
  reading of the Go specification (raw string literals end at the first back quote and lose
  carriage returns), for files of the shape of fallback.go.
* `Idna.v` follows RFC 3492 and the structure of golang.org/x/net/idna from memory, since the
  library is not part of /repo.  Its `strict` flag covers both treatments of ACE labels that
  decode to ASCII, which changed between versions.  The profile of ConvertURLToPunyCode
  (`idnaToPuny`), which also maps and validates characters, is not modelled: it remains a
  parameter.

Concurrency (C43): the memory operations of all running calls are interleaved, each seeing the
effect of the previous one (sequential consistency).  The Go code has a data race here (Update
writes f.tldTrie while Extract may read it, without synchronisation): with Go's memory model
the read of the one-word pointer still gives one of the written values, but a reader on a
weakly ordered machine might see the new pointer before the contents of the new trie.  `Weak.v`
has such a memory: per object the values are written in some order, and a goroutine sees any of
them that is not older than one it has seen or written or that was seen in a call that ended
before its own began.  On it the calls behave as on the ordered memory if no Update overlaps
another call on the same extractor (C101), and otherwise Extract still returns (C102)
and nothing wrong stays behind (C103).  Map
accesses are single reads or writes of the node there too.  A `hashmap.Map` is a struct, which
is not safe for concurrent use: no two overlapping calls write and use one map under sequential
consistency (C95), and an Extract that no Update overlaps sees every object as it was last
written (C101_latest), so that for them it does not matter how many accesses a map operation
takes.  An Extract that an Update overlaps may on a real machine see the fields of a map as they
were at different times; C102 assumes that it does not, and C102_torn_refuted shows that the
lookup may otherwise panic or run for ever.  Within a
sequentially consistent memory, goroutines may be preempted between any two accesses to nodes
(C95); between allocation and installation a trie is reachable only by the call that builds it.

Processes (C98): operations other than reading and writing a file happen at once, the pieces of
a read or write happen in order, each process has its own file handles and memory, and no other
program changes the files or removes them.

Steps (`Steps.v`, `LoadSteps.v`): library functions that go through a string take a step for each byte, a map lookup
one for each byte of the key (few keys share a hash); the IDNA library is not counted, and neither are
memory management and the formatting of error messages.

Command line: what fatih/color v1.19.0 makes of attributes is in `Colour.v`, written down from
knowledge of the library; `ColourSpec.v` is our reading of ECMA-48 for the sequences it uses.  The parts of cobra v1.10.2
and pflag v1.0.10 that find the command and parse boolean flags are modelled by their
definitions, written down from knowledge of these libraries since their code is not in the
sandbox (`Cli.v` names the functions).  Texts of cobra (help, usage, version, completion) are
not modelled, nor is what the commands `help`, `completion` and `__complete` do.

## Defects found while proving

| property | defect |
|---|---|
| C04 | `example.com//path`: the host becomes the Scheme |
| C06, C23 | a rule of two labels whose last label is no rule (`co.za` without `za`) changes how `x.za` is split |
| C53 | with the built-in list `x.akershus.no` gets Suffix `akershus.no`, `x.co.za` gets Suffix `co`, with private suffixes `x.amazonaws.com` gets Suffix `amazonaws.com` and `a.b.svc.firenet.ch` gets Suffix `svc.firenet.ch` |
| C08 | port `+80` is accepted and returned with its sign |
| C11 | IPv6 groups of any length with leading zeros, non-ASCII dots and a trailing dot are accepted |
| C14 | a rule such as `0.1` splits IPv4 addresses |
| C19, C20 | characters are truncated to a byte before they are looked up; a host without suffix is checked only up to its last label |
| C25, C48 | an escaped or upper case label misses its rule |
| C35, C36 | a list path with surrounding blanks is checked trimmed but read untrimmed |
| C58 | `a.-b.com` is accepted with RegisteredDomain `-b.com`, which itself is rejected |
| C62 | a host that mixes Unicode and Punycode labels (`b.公司.xn--j6w193g`) misses the rule for it; an exception rule outside ASCII is encoded together with its `!`, so that the ASCII form is no exception |
| C40, C41 | the cache file is overwritten in place and not truncated |
| C98 | while another process updates the cache file, New may read parts of both lists and use a rule that is in neither |
| C100 | after a failed Update, New logs `<nil> Fallback to hardcoded Public Suffix List`; the error is lost |
| C100 | a download that is no list is skipped without a line in the log, and Update may fail without any |
| C100 | Update logs that the list was updated and then returns an error if the file cannot be read |
| C100 | the separator `'\|'` in the message about a rule is logged as the number 124 |
| C101 | on weakly ordered memory an Extract during an Update may see the new trie without its contents and find no suffix where both lists have one |
| C109 | a URL with escape sequences in it, which Extract accepts, controls the terminal that PrintRes writes to |
| C102 | if it sees the fields of a map of the new trie as they were at different times, an Extract during an Update may panic or never return |
| C100 | with ToPunycode a host that the IDNA library rejects is reported as an empty domain |
| C38 | an extractor that fell back to the built-in list can never be updated |
| C64 | gen.go checks neither the HTTP status nor the text, so that an error page becomes the built-in list; it ignores write errors; a back quote in the list gives a fallback.go that does not compile |
| C43 | data race between Update and Extract |
