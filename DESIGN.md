# Formal model of hrdc: design

`/repo` is a Python library that compiles, optimises, converts and decompiles
USB HID report descriptors.  `/verif/rocq/theories` contains a Gallina model of
it (Coq 8.16.1, standard library only) and theorems about the model.

## 1. Trusted base

* Coq's kernel (8.16.1) and `vm_compute`.
* `Print Assumptions` is run under every property theorem; the answer is
  `Closed under the global context` for all of them.  No axiom is used.  (A
  checker that lists the axioms of all loaded library modules finds
  `Coq.ssr.ssrunder.Under_rel.*`: these are the opaque interface of a standard
  library module that `ZifyBool` loads; no theorem depends on them.)
* The model being the Python code.  Each definition cites the lines it
  models.  `ModelTests.v` replays every unit test of `/repo/tests` on the model
  by `vm_compute` (they all pass), and `DocTests.v` the worked examples of the
  documentation, as evidence, not proof.  One example there is out
  of date: the converter names pages after `pageName` (`GenericDesktop`), not
  after the module as printed there.
* `tools/gen_usage.py`, which transcribes the 1333 usage constants of
  `hrdc/usage/*.py` into `UsageTable.v` (text only, aborts on any line it does not
  recognise).
* `HidSpec.v`, the reading of the HID 1.11 specification used to state what a
  host sees: it is a specification, short, and independent of the model.
* `PyExpr.v`, the reading of the Python 3 language reference used to state what
  a dumped script means (C50, C52, C53): a tokeniser, a parser and an evaluator
  of the expressions found in scripts, independent of the Dumper.  Its
  constructors are those of `Descriptor.v` and its module attributes those of
  `UsageTable.v`.

### Modelled

| File of the model | Code |
|---|---|
| `Py.v` | `util/named_constant.py`, exceptions as values, the Python primitives used |
| `Usage.v` | `usage/usage.py` (Usage, lookup, split, page, inpage, UsageRange, UsageType) |
| `UsageTable.v`, `UsageModules.v` | all constants of `usage/*.py`, import order, `Usage.reverse` after import |
| `Item.v` | `stream/item.py` (all classes, constructors, bytes, parse, ==, str) |
| `Parser.v` | `stream/parser/base.py`, `binary.py`, `formatter/binary.py`, `converter.py` |
| `TextFormats.v` | `formatter/hex.py`, `formatter/code.py`, `parser/hex.py`, `parser/code.py`, `comparer.py` |
| `Optimizer.v` | `stream/optimizer/*.py` |
| `Descriptor.v` | `descriptor/descriptor.py`, `streamer.py`, `compiler.py` |
| `Extractor.v` | `descriptor/extractor.py` |
| `Dumper.v` | `descriptor/dumper.py` (the text printed, character by character), `extractor.py:main` |
| `Converter.v` | `converter.py` with `-O` |
| `Interrupt.v` | `streamer.py`, `compiler.py`, `converter.py` again, statement by statement: what has been written when an exception is raised |
| `Members.v` | `Hierarchical.__getitem__`, `append`, `pop`, `__len__` (`descriptor.py:21-34`), and such calls through chains of indices |
| `Compare.v` | `stream/item.py` (<), the operators of `util/named_constant.py` |
| `Tools.v` | `converter.py`, `compiler.py`, `extractor.py:main`, `test.py` for every format, named files and standard streams; parser and formatter registries |
| `Stdout.v` | `extractor.py:205-216` again: what is printed besides the script |

### Not modelled

* argparse command lines, `print` of diagnostics before an exception, `warnings` machinery (only
  whether a warning is raised).  How a text file is encoded is a parameter
  (`Tools.locale`); buffering below `write` is not modelled, so "written" means
  handed to the file object (C85).
* Sharing between trees: an object that is a member of two collections is two
  trees in the model (`Members.v`), so altering one leaves the other alone.
* Assignment to attributes of objects after construction (append and pop are
  modelled, `Members.v`); the model takes the
  attribute values at the time `accept` runs.
* Python integers stand for `ReportCount` inside `MainMerge` and the arithmetic
  of `Extractor` even if the user put a NamedConstant there (the code raises
  TypeError then).  Parsed items always hold ints there (C84).
* Non-ASCII text in the hex and code parsers.
* `math.log(m, 2)` is floating point in `Item.bytes`; the model uses the exact
  logarithm, and a theorem (`C02_log_robust`) shows the bytes are the same for
  every logarithm function that is on the right side of four thresholds (7, 8,
  15, 16 bits).

The registry `Usage.reverse` is global mutable state.  It is a parameter (`db`)
of the model, so theorems hold for every registration history.

## 2. Specification: `HidSpec.v`

Independent of the model's helpers: a byte-level decoder of short items
(prefix, little-endian payload, two's complement for the five signed tags); an
interpreter of item lists with a global state table (Push/Pop stack), local
lists (usages, designators, strings, with minimum/maximum pairs expanded in
place), producing events: collection start (kind, usages, designators,
strings), collection end, and one field per report element with report kind,
report id, flags, size, logical range, effective physical range (logical when
both are 0), unit, exponent and its usage, designator, string (the last one is
repeated; arrays carry the assignment of each selector).  Two ways to bind
16-bit usages to pages are defined: at the declaration (Linux, Windows, and what
hrdc's UsagePage pass intends) and at the main item (HID 1.11 6.2.2.8).
Delimiters are part of what a field or collection carries: the list of
delimiter values, each with the number of usages declared before it.

Further specifications, each independent of the code it judges:

| File | Says |
|---|---|
| `Spec.v` | small predicates for the codec properties (allowed numbers, known items, widths) |
| `StreamSpec.v` | what a descriptor tree declares (from doc/descriptor.rst): leaves in order with the report id in force (`threaded`: the last one entered; `scoped`: the innermost Report), their events (`follows`), well-formed trees |
| `LayoutSpec.v` | the layout of a tree: a function from the leaves to the events, with the gaps computed from a tally of the values before |
| `OptSpec.v`, `AllSpec.v` | conditions on streams for the passes and the whole optimiser: `uniform`, `joins`, `regular`, `closed_stream`, `unstacked` |
| `TreeSpec.v` | the same as conditions on trees: `closed_tree`, `paged_leaves`, `scaling_ok`, `uniform_leaves`, `same_pages`, `compact_leaves` |
| `ExtractSpec.v` | what a decompiled tree owes to its stream: `stands_for`, `fields_of`, `drawn`, `prunes`, `placed` (fields with their bit offsets) |
| `BackSpec.v` | which values survive compiling and decompiling: `restorable`, `same_value`, usages by number (`bare`) |
| `DumpSpec.v` | `same_tree` (equal but for names), `dumpable`, `kinds_ok` |
| `PrintSpec.v` | the trees a script can build: the constants of the package and the arguments of Value, Padding, Align (`script_tree`) |
| `FormSpec.v` | how small optimised output has to be: joined data items (`joined`), ranges (`all_ranged`), defaults |
| `ComposeSpec.v` | the reports a tree's values are in, trees that share none |
| `OptBackSpec.v` | what the optimiser leaves to the decompiler: `spanning`, `comes_back`, `joinable_leaves` |
| `PageSpec.v` | a stream without its UsagePage items, as a host reads it that knows no pages |
| `StackSpec.v` | a stream without its Push and Pop items |
| `TitleSpec.v` | fields and streams without strings and designators |
| `CSpec.v` | the text of a C array initialiser: constants, commas, white space, comments; what the parser needs beyond C (`readable`) |
| `CommentSpec.v` | the comment of an item: names of the HID specification, the usage page in force |
| `HutSpec.v` | numbers of the usages of fifteen pages of the HID Usage Tables |
| `PlainSpec.v` | `plain_number`: the number of an item is an int, not a NamedConstant |
| `HeedSpec.v` | `heeded`: the items left when the bounds the decompiler ignores are dropped |
| `VerdictSpec.v` | `verdict`: which descriptors the decompiler rejects, with which exception |
| `UnitSpec.v` | base units of the four systems, exponents of a unit code (HID 1.11, 6.2.2.7), what the names of units mean |
| `FlagSpec.v` | words of the nine flag bits, types of collections, data items (HID 1.11, 6.2.2.4 to 6.2.2.6) |
| `MembersSpec.v` | nodes of a tree by place, what Python indices denote, a tree with one member more, sequences of calls that undo each other |
| `RepeatSpec.v` | what a list of items has said so far, where saying it again is harmless |
| `ShortSpec.v` | rules that say which members mean the same; places in trees |
| `OrderSpec.v` | global items in another order; outcomes that are as good |
| `StdoutSpec.v` | which data items make the decompiler talk on standard output |
| `ViewSpec.v` | what each main item shows to a reader that ignores Push, Pop and Delimiter; streams that differ in nothing shown |
| `FollowSpec.v` | the members of two trees in a row, with the report that goes on |
| `TwiceSpec.v` | which values of a decompiled tree are found again |
| `IdsSpec.v` | the ids of the Reports of a tree, the ReportID numbers of a descriptor (C97) |
| `NumberedSpec.v` | the report ids of the fields a host reads, Reports and values of a tree from top to bottom (C98) |
| `ApartSpec.v` | the fields of one report that a host reads, the values of one report of a tree (C99) |
| `RenumberSpec.v` | trees and fields with other report ids (C100) |
| `PrefixSpec.v` | trees that go on where another one stops (C101, C104) |
| `LengthSpec.v` | the bits of the values of one report of a tree (C102) |
| `SpineSpec.v` | the Reports and values of a tree without its collections (C103) |
| `InterruptSpec.v` | trees with one collection around everything; items that declare nothing |
| `BareSpec.v` | fields without labels or physical ranges; main item states without bounds or designators 0 |
| `AcceptSpec.v` | `clear_stream`, `storable`, `roomy`, `small_item`, `labelled`, `tidy`: what the decompiler and the compiler have to accept |

## 3. Properties

Theorems live in `Properties_*.v`, one or more per property, each with a concrete
instance (`Cnn_case`) and `Print Assumptions`.  "refuted" means: the full
statement is false of the code; a theorem `..._refuted` gives witnesses and a
theorem `..._partial` proves the strongest true restriction found, with what is
missing in the comment above it.  `MANIFEST.json` lists the theorems.

| Id | Status | How it is proved; what fails |
|---|---|---|
| C01 | proved | `bytes`, `parse`; arithmetic on little-endian lists, case on width |
| C02 | proved | `bytes` succeeds iff in 32-bit range; plus robustness to the float logarithm |
| C03 | proved | width function against the minimal width predicate |
| C04 | proved | `bytes` against the decoder of `HidSpec` |
| C05 | proved | `serialize` then `blob_parse`, induction on the item list |
| C06, C07 | proved | `blob_parse` against the relation "sequence of short items" of the spec, strong induction on the blob |
| C08 | proved | C05 and the idempotence of the constructors |
| C09 | refuted, partial | a usage below 2^16 in four-byte form is written in the short, page-relative form; true without such usages; C09_always: nothing else changes, in any blob |
| C10 | proved | the regex scanner on formatter output and on all separated token texts |
| C11 | proved | line, comment and white-space removal on formatter output; names without newline (`C11_newline` shows why; `C11_registry`: no registered name has one) |
| C12 | proved | induction on the stream, the depth as specification |
| C13 | proved | induction on the stream |
| C14 | proved | disjoint nibbles, finite check per nibble lifted by bit arithmetic |
| C15 | refuted, partial | Collection given a negative int indexes from the end; every other class and argument is right |
| C16, C17 | proved | arithmetic (`Z.shiftr`, `Z.land`), induction on ranges |
| C18 | refuted, partial | UsageRange indices are not checked; right for 0..len-1 |
| C19 | proved | exhaustive computation over the table, which is finite and complete |
| C20 | refuted, partial | exactly four constants print under another name: desktop.TabletPCSystem, Start, Select, simulation.AntiTorqueControl |
| C21 | refuted, partial | exactly one constant: desktop.SystemDisplayRotationLockButton |
| C22 | proved | case analysis of the constructor |
| C23 | proved | induction on the tree; optimised case by C31 |
| C24 | proved | induction on the tree with the interpreter state generalised |
| C25 | refuted, partial | the id of a Report stays in force after it |
| C26 | refuted, partial | a Report(0) after a Report with another id; right otherwise |
| C27 | refuted, partial | `count` is not counted in the offsets; right when the extra repetitions are multiples of the alignments |
| C28 | refuted, partial | an inner Report hides an invalid id |
| C29 | refuted, partial | with a collection usage the main item is flagged Variable |
| C30 | proved | composition of stateful passes equals composition of their run functions |
| C31, C32 | proved | each pass keeps the collections, and the bit fields of each report |
| C33 | proved | GlobalMerge: simulation between host states, for streams without Push and Pop |
| C34 | refuted, partial | Pop changes the table in force but not what GlobalMerge remembers; `C34_always` (StackFacts.v): the passes commute with leaving out Push and Pop |
| C35 | refuted, partial | strings and designators always right; usages that mix pages, mix short and long, or are delimited are not |
| C36 | refuted, partial | Pop restores a page unseen by the UsagePage pass; `C36_always` as `C34_always` |
| C37 | refuted, partial | strings and designators move between fields, different arrays become one; right for `uniform` items; attributes are always kept (`C37_always`) |
| C38 | refuted, partial | dropped physical bounds may have been needed to undo earlier ones, also in compiled trees; everything else is always kept (`C38_always`) |
| C39 | refuted, partial | designators separated by global items; everything but designators 0 is always kept (`C39_always`) |
| C40 | refuted, partial | composition of C33 to C39 on Streamer output with C24, down to bytes; strings and physical ranges leak to the next value, a tree that ends in a value loses its usage; usages of page 0 by comparison with the tree in which 65536 is added to all usages (PageTree.v); `C40_fields_partial` (TitleFacts.v): the passes commute with leaving out strings and designators, so these can only damage each other |
| C41 | refuted, partial | short usages get a UsagePage 0; what is kept exactly (`C41_always`, PageShift.v): the stream is compared with the one in which 65536 is added to every usage, for which C40 holds |
| C42 | refuted, partial | values of different pages are joined |
| C43 | refuted, partial | usages of page 0, or with page and number above 255, grow; for every tree by at most two bytes for each usage (`C43_always`) |
| C44, C46 | refuted, partial | invariant between Extractor state and the interpreter of `HidSpec`; data after the last closed collection is lost silently, Pop is ignored; `C44_always`, `C46_always`: nothing else is, in any stream |
| C45, C47 | refuted, partial | units and usages of arrays are lost, empty collections are dropped; right for plain streams, up to the last closed collection and without Push and Pop (`C45_always`, `C47_always`) |
| C48 | refuted, partial | values are moved to multiples of their sizes; id 0 is ignored after another; collections without usage do not compile; a buffer of bytes becomes one value, so what follows must still be aligned (`buffers_fit`) |
| C49 | refuted, partial | repetitions other than of bytes, units of arrays, arrays with a usage of another type, values after the last collection are lost |
| C50 | refuted, partial | the printed script, read by `PyExpr.v`, rebuilds the tree; usage 0, the four misprinted constants, flags above 0x100, unit 0xf011 and collection types from 7 are lost or do not evaluate |
| C51 | proved | simulation between runs of the Streamer and of every pass on items equal but for names |
| C52 | refuted, partial | C50 and C51 |
| C53 | refuted, partial | C48 and C52; the optimised output: see C58 |
| C54 | refuted, partial | a field with a usage per logical value outside a collection (AttributeError), in a NamedArray collection with members (AssertionError), in a Logical collection without usage (TypeError) and an array without logical values (ValueError) are rejected; `C54_exactly` says of all item sequences which are rejected and how, `C54_accepted` which byte strings are accepted |
| C55 | proved | |
| C56 | refuted, partial | two joined fields whose counts add up to 2^32 fail only when optimised; a usage over 32 bits compiles only when optimised |
| C57 | refuted, partial | a collection without usage, a report id over 255, a constant field of 2^32 bits and a page over 16 bits decompile to trees that do not compile; `C57_exactly`: nothing else prevents it (`AcceptSpec.recompilable`) |
| C58 | refuted, partial | false without the conditions of C45, C48, C54 and C57; optimised: those of C40 and C42; script: those of C50 |
| C59, C60 | proved | text files keep ASCII and line feeds; names printable |
| C61 | proved | |
| C62 | refuted, partial | binary data is read from and written to files opened in text mode: TypeError |
| C63 | proved | simulation between two runs of the parser and of the Extractor on items equal but for names |
| C64 | refuted, partial | C49 on a tree whose usages are numbers, C51 and C63; also lost: arrays whose usage is not registered as NamedArray where they are decompiled |
| C65 | refuted, partial | the passes keep which main items the decompiler can express (marks); after the range passes every local list is single items or one range; then C54, C47 and C42 |
| C66 | refuted, partial | passes that hold items back as functions of segments (`Idem.seg_run`); GlobalMerge and MainMerge by running both runs side by side; UsagePage adds `UsagePage(0)` the second time |
| C67 | proved | C01 and the width of the payload |
| C68 | refuted, partial | the three comparisons of `__lt__` are joined by `or` instead of lexicographically |
| C69 | refuted, partial | induction on expressions; `1 + X`, `X - 1`, `4 < X` raise TypeError |
| C70 | proved | the four shipped trees meet the conditions of C26, C40, C51 and C65, shown by computation; these theorems then give the rest |
| C71 | refuted, partial | a grammar of C initialisers (CSpec.v); each step of the parser on a rendered list of pieces. `16` is read as 0x16; `/* // */` hides the end of its line, up to losing bytes |
| C72 | refuted, partial | characters and number of parts of accepted texts; `5 1` is nothing in hex and 0x51 in code |
| C73 | refuted, partial | CommentSpec.v: names of items, flags, collection types, units, pages, usages; after a Pop short usages get the name they have in the last page declared; flags from 0x200 on are shown as Array |
| C74 | refuted, partial | HutSpec.v: numbers of the HID Usage Tables written from memory of the standard; wrong: desktop.SystemDisplayRotationLockButton (page 0x10) and the page of arcade (0xff00, not 0x91); no claim about the nine player usages of led, which differ from later tables as remembered; missing constants: led.IndicatorGreen, led.GenericIndicator |
| C75 | proved | CSpec.v as for C71; line continuation by a backslash or its trigraph excluded separately |
| C76 | proved | same induction as C24 with the streamer's counters tied to a tally of the leaves; optimised by C32 and C40 |
| C77 | partial | proved for every tree the compiler optimises; for blobs UsagePage may be repeated (`C77_refuted`), the other globals not |
| C78 | partial | proved for trees a script builds from ints and the constants of the package, if named arrays are not empty and come without bounds other than logicalMin, Align keeps its default flags and usages print as themselves (`dumpable`); without these conditions the script gives another tree or cannot be run (`C78_refuted`) |
| C79 | refuted, partial | the main items of the output computed from the plain stream by a spec of its own (`joined`); without a collection at the end nothing is merged |
| C80 | refuted, partial | the range passes on segments; later passes write no new singles. A run that begins with 0 is not merged: the bound 0 counts as none |
| C81 | proved | GlobalMerge starts with zeros; no pass invents a global other than ReportCount; DesignatorUniq and PhysicalMerge as functions of segments |
| C82 | proved | non-interference by induction on the tree: equal counters for the reports used give equal items and equal growth; reports not used keep their counters |
| C83 | proved | the local state after `heed` agrees with the original on what `_append` reads; induction over the stream |
| C84 | proved | by cases on the class of each item the parser makes |
| C85 | proved | the run followed item by item agrees with `compile`; main items survive the optimiser in order (C31), so what is written is a part of an open collection |
| C86 | partial | refuted by `Second`, `Ampere`, `Candela` (system "None"); the rest from C14 and by inspection of the 17 constants |
| C87 | proved | by induction over the expression of flags; the constants as `PyExpr.v` resolves them |
| C88 | proved | induction over histories; frame property by induction over the chain of indices |
| C89 | refuted, partial | insertion of an item whose number is in force, followed through DesignatorUniq, MainMerge (simulation) and PhysicalMerge to GlobalMerge, which drops it; refuted for physical bounds, logical ones beside them, a last count and among locals |
| C90 | proved | the items and the state of the streamer are the same for both sides of every rule; a constant Value with default alignment is no Padding (`C90_padding_refuted`) |
| C91 | refuted, partial | trades of neighbours followed through every pass: each gives lists that differ by such trades (MainMerge: a ReportCount leaves no trace once two main items have followed); refuted for a last count and for global against local items |
| C92 | refuted, partial | the `print(e)` of extractor.py:214 puts a remark before the script; which remarks, from the numbers of the items, along the invariant of C54 |
| C93 | proved | both runs advance to the next main item, where the states agree in what it reads (`NameBack.mlike`), hence in the levels afterwards; Push and Pop being ignored is the defect of C48 |
| C94 | proved | the second run is the run of C93 from a fresh root, and the same run above members that are there already; report insertion of two lists of members in a row |
| C95 | refuted, partial | decompiled trees are modest and their values restorable (usages are numbers, counts are one or of bytes, no units on arrays), so C64 applies; lost: report 0 after another report, values after the last collection, arrays known by the kind of their collection only |
| C96 | proved | induction on trees: the only failure, the length of a range with swapped ends, is noticed by the constructor; C95's lemma that decompiled trees are well-formed |
| C97 | partial (`C97_refuted`) | induction on trees over the streamed items; a negative id is refused by the item; the passes of the optimiser only drop items or move them (`optimize_in`); the limit 255 holds of Reports that begin with values (C28) and is false otherwise: `Report(300, [])` compiles |
| C98 | partial (`C98_refuted`) | the layout of C76, whose report ids are a fold over the Reports and values from top to bottom; a value before the first numbered Report is read in report 0 |
| C99 | partial (`C99_refuted`) | the layout of C76: by induction its fields in report r are those of the leaves of report r alone, since gaps depend on the bits counted for the same report; likewise for the Inputs, Outputs or Features of one id |
| C100 | proved | the layout of C76 commutes with injective renumberings, since bits are counted by report; C55 for acceptance |
| C101 | partial (`C101_refuted`) | induction on the way to the additions: the Streamer runs the same on the common members; EndCollection is the byte 0xc0; optimised, a field may be joined with the next one |
| C102 | proved | the layout of C76, added up by induction on the leaves; C32 for the optimiser |
| C103 | proved | the layout of C76: the leaves without collections are a fold over the Reports and values from top to bottom |
| C104 | proved | each pass writes after EndCollection, or keeps in front of what it holds, the items it would write on closing; for MainMerge no ReportCount may wait between the main items, and the Streamer leaves none |

Also found: items with an empty payload grow to one byte when converted.

## 4. Testing the theorems

`tools/mutate.py` edits one definition of the model in a copy of the sources,
rebuilds, replaces each proof that fails by `Admitted` in that copy, and reports
which property theorems rest on such a proof.  `tools/seedlog.py` appends the
result to `seeded/LOG.jsonl`.  An edit that breaks a claim without breaking its
theorem is a survivor; the theorem is then tightened.
`tools/screen.py` makes small random edits, one per definition, and stops at the
first lemma or theorem that fails; it is a cheaper search for survivors.
