#!/usr/bin/env python3
# Source of /verif/properties.jsonl (run: python3 tools/props.py > properties.jsonl)
import json
P=[]
def p(id,title,statement,quantifier,why,*anchors):
    P.append(dict(id=id,title=title,statement=statement,quantifier=quantifier,why_tests_cant=why,anchors=list(anchors)))
I="hrdc/stream/item.py:"; B="hrdc/stream/parser/base.py:"; O="hrdc/stream/optimizer/"; D="hrdc/descriptor/"; U="hrdc/usage/usage.py:"
p("C01","Item encode/decode round trip","For every item class and every value in the class's 32-bit range, Item.parse(item.bytes()) is an item equal (==) to the original one.","all 27 item classes, all 2^32 values of each (signed or unsigned)","The value space is 27 x 2^32 with width and sign boundaries; the test suite checks about 14 values.",I+"Item.bytes",I+"Item.parse",I+"Item.__eq__")
p("C02","Unrepresentable values are rejected, never truncated","item.bytes() succeeds exactly when the value fits 32 bits in the class's signedness; otherwise it raises and writes no bytes.","every item class and every integer (unbounded)","Needs all integers on both sides of the range.",I+"Item.bytes")
p("C03","Minimal payload width","The payload written has the smallest width among 1, 2 and 4 bytes that can hold the value (no payload at all only for EndCollection), so no shorter payload decodes to the same value.","every item class and representable value","Boundaries depend on sign and on a logarithm; only a universal statement covers all.",I+"Item.bytes")
p("C04","Bytes are HID short items","The bytes written for an item are a HID short item by the HID 1.11 wire format: prefix byte = tag, type, size code; little-endian payload; signed items in two's complement. An independent decoder of the wire format reads back the class's type and tag and the item's value.","every item class and representable value","Quantifies over the whole value range; an independent decoder is needed as oracle.",I+"Item.bytes",I+"MainItem",I+"GlobalItem",I+"LocalItem")
p("C05","Parsing a serialised stream gives the stream back","Feeding the concatenated bytes of any list of items to blobParse appends to the output exactly the same items (==), in order, then closes the output once.","every finite list of representable items","Lists of any length and content.",B+"Parser.blobParse",B+"Parser.append")
p("C06","Parser accepts exactly well-formed blobs","blobParse succeeds on a byte string exactly when it is a sequence of complete HID short items whose (type, tag) the library knows and whose EndCollection/Push/Pop payloads are zero; the items delivered carry the tags and values of the wire format.","every byte string","All byte strings of all lengths.",B+"Parser.blobParse",I+"Item.parse")
p("C07","A bad item stops the parse; nothing before it is lost, nothing after it is delivered","If a blob is a sequence of valid items followed by a truncated, unknown or rejected one, exactly the valid prefix is delivered downstream, then the parser raises and does not close the output.","every valid prefix and every way to break the next item","Crash point can be anywhere in an unbounded stream.",B+"Parser.blobParse",I+"Item.parse")
p("C08","Converter output is a fixed point","Converting a blob (no -O, binary to binary) yields bytes that parse to the same items, and converting those bytes again reproduces them identically.","every accepted blob","All blobs, including all non-minimal encodings.","hrdc/converter.py:_main",B+"Parser.blobParse","hrdc/stream/formatter/binary.py:Binary.append")
p("C09","Converter preserves the descriptor's meaning","Without -O, a host interpreting the output of the converter sees the same collections and fields (report id, kind, flags, size, logical/physical range, unit, usages, strings, designators) as for the input.","every accepted blob whose 4-byte usages are really extended (page not 0)","Requires a semantics of whole descriptors for all blobs.","hrdc/converter.py:_main",B+"Parser.append")
p("C10","Hex text round trip","The text written by the hex formatter, read by the hex parser, gives the same bytes; more generally any sequence of two-digit hex tokens separated by non-word characters, with or without 0x, is read as exactly these bytes.","every list of items / every byte list and separator","All byte strings and separators; regular-expression scanning.","hrdc/stream/formatter/hex.py:Hex.append","hrdc/stream/parser/hex.py:Hex.read")
p("C11","C code text round trip","The text written by the code formatter, read by the code parser, gives the same bytes, whatever the names shown in the comments (as long as they contain no newline) and whatever the indentation.","every list of items with any names","Comments contain arbitrary names that might contain comment or byte-like text.","hrdc/stream/formatter/code.py:Code.append","hrdc/stream/parser/code.py:Code.read")
p("C12","Indentation follows collection nesting","In code output each line is indented by 4 spaces per enclosing open collection, and closing warns exactly when Collection and EndCollection counts differ.","every list of items","Nesting unbounded.","hrdc/stream/formatter/code.py:Code")
p("C13","ExpectedStream passes exactly on equal bytes","A run of append for every item followed by close passes all its assertions exactly when the concatenation of the items' bytes equals the expected bytes.","every list of items and expected byte string","The test helper itself must have no false positive or negative.","hrdc/stream/comparer.py:ExpectedStream")
p("C14","Unit composition is faithful","Composing a unit system with length, mass, time, temperature, current and luminous-intensity exponents in [-8,7] by | gives a 28-bit value from whose nibbles (two's complement) all exponents and the system can be read back; exponents outside [-8,7] are rejected.","all systems 0..15 and all exponent tuples / all integers for rejection","16^7 combinations.",I+"_unit_nibble",I+"Unit")
p("C15","Constructors keep the number they are given","Constructing any item from an integer or constant (including conversion to a named unit, flag set, collection kind or usage) keeps its integer value; negative values for unsigned classes are rejected; None for an optional value means 0.","all item classes and all values","All values for all classes; names are substituted from tables.",I+"Item.__init__",I+"Unit.__init__",I+"DataItem.__init__",I+"Collection.__init__",I+"Usage.__init__")
p("C16","Usage page/id split is lossless","For every usage value 0..2^32-1, lookup keeps the number and split gives page = value>>16 and id = value & 0xffff, whatever the registered names; inpage(page, id) gives back id.","every value and every registry content","2^32 values times any registry history.",U+"Usage.lookup",U+"Usage.split",U+"Usage.inpage")
p("C17","UsageRange enumerates its bounds","Iterating a UsageRange yields exactly the usages min..max in order, len() of them; r[i] agrees with iteration for 0 <= i < len; from_array accepts exactly contiguous arrays of at least two elements and the resulting range iterates back to the array.","all bounds / all arrays","Unbounded ranges and arrays.",U+"UsageRange")
p("C18","UsageRange indexing behaves like a list's","r[i] raises IndexError outside -len..len-1 and r[-1] is the last element (doc: 'behaves like a Python list (operators len, [] and iterable)').","all ranges and indices","All indices.",U+"UsageRange.__getitem__")
p("C19","Usage constants are unambiguous","Usage.lookup(int(u)) returns the very constant u for every usage constant the package defines: no two constants share a number.","every constant defined by hrdc.usage (about 1600)","Tests look at a handful of constants.","hrdc/usage/*.py",U+"Usage.reverse")
p("C20","Printed usage names evaluate to the constant","The str() of each package usage constant, evaluated as Python after 'from hrdc.usage import *', denotes that constant; the decompiler relies on this.","every constant defined by hrdc.usage","Tests look at a handful of constants.","hrdc/usage/*.py",D+"dumper.py:Dumper.element")
p("C21","Usage constants lie on their module's page","All constants of a usage module have the same usage page (high 16 bits), the page whose name table entry is that module's.","every constant defined by hrdc.usage","Tests look at a handful of constants.","hrdc/usage/*.py",U+"Usage.pageName")
p("C22","Value defaults are normalised","Value() rejects non-constant values without logical bounds or named array; when both physical bounds are missing or zero they are set to the logical bounds given; a named array gets logicalMax = logicalMin+len-1 and flags Array (or Variable when a usage is given); default alignment is min(8,size).","all argument combinations","Argument space is unbounded.",D+"descriptor.py:Value.__init__")
p("C23","Compiler output has balanced collections","For every descriptor tree that compiles, the item stream (optimised or not) has every Collection closed by a matching EndCollection, never more ends than starts in any prefix.","every tree, every depth","Unbounded trees.",D+"streamer.py:Streamer",D+"descriptor.py:Hierarchical.accept")
p("C24","Compilation is faithful and leak-free","The unoptimised stream, interpreted by a HID host, declares exactly the fields the tree declares, in order, each with its own flags, size, count, logical and physical range, unit, usages, string and designator, independently of what precedes it, inside the right collections.","every tree whose values are well-formed","Item globals persist, so any earlier element could leak into a later one; unbounded trees.",D+"streamer.py:Streamer.element",D+"streamer.py:Streamer.enter")
p("C25","Report ids scope over subtrees","Each field is in the report of the innermost enclosing Report (0 when none).","every tree","Any interleaving of Reports in the tree.",D+"streamer.py:Streamer.enter",D+"descriptor.py:Report")
p("C26","Alignment is enforced","Each Value starts at a bit offset, within its (kind, report id) report as seen by a host, that is a multiple of its alignment; the padding inserted before it is less than the alignment; Align(b) makes the offset a multiple of b.","every tree with count = 1 values","All trees and offset histories.",D+"streamer.py:Streamer.element")
p("C27","Alignment is enforced for repeated values","As C26, for trees containing values with count other than 1.","every tree","Bookkeeping error only visible for particular combinations of count and size.",D+"streamer.py:Streamer.element")
p("C28","Invalid descriptors are rejected","Compiling a tree with a value in a report whose id is not in 0..255, a negative report id, or a collection without usage raises instead of producing output.","every tree containing such an element anywhere","Unbounded trees.",D+"streamer.py:Streamer")
p("C29","Named arrays are arrays","A Value with namedArray compiles to an Array main item (selector index), as HID requires for named arrays, with or without a collection usage.","every value with a named array","All values.",D+"descriptor.py:Value.__init__",D+"streamer.py:Streamer.element")
p("C30","Optimizer.new chains exactly the selected passes","Optimizer.new(stream, min, max) behaves like running, in decreasing precedence order, exactly the passes with min < precedence < max, each over the complete output of the previous one; close reaches the stream exactly once.","every min, max, item list and sink","Streaming interleaving of passes must equal batch composition for all inputs.",O+"base.py:Optimizer.new")
p("C31","Optimiser keeps the collection structure","The sequence of Collection and EndCollection items and the number of open collections around every data item is unchanged by optimisation.","every item stream that ends after its last main item","All streams.",O+"*.py")
p("C32","Optimiser keeps every report's layout size","For every report kind and id, optimisation keeps the list of field sizes, hence the total bit length of the report.","every stream without Push/Pop that ends with a non-data main item","All streams.",O+"main_merge.py:MainMerge",O+"*.py")
p("C33","Global merging removes only no-ops","For every stream without Push/Pop, removing repeated globals leaves a host's view unchanged, and afterwards no global item sets the value it already has.","every stream without Push/Pop","All histories of global state.",O+"global_merge.py:GlobalMerge")
p("C34","Global merging respects Push and Pop","Same as C33 for streams with Push and Pop.","every stream","Needs all nestings of Push/Pop.",O+"global_merge.py:GlobalMerge")
p("C35","Range merging keeps the expanded lists","For usages, strings and designators, replacing consecutive single items by a minimum/maximum pair keeps the list of values a host expands for each main item, and single values are merged whenever they are all consecutive.","every stream without Delimiter items","Unbounded lists of locals.",O+"range_merge.py:RangeMerge")
p("C36","Usage page splitting keeps full usages","Splitting 32-bit usages into UsagePage + 16-bit usage keeps the full usage a host reads (page in force at the declaration), and a UsagePage item is inserted only when the page changes.","every stream of 32-bit usages without Push/Pop","All page histories.",O+"usage_page.py:UsagePage")
p("C37","Main merging keeps the fields","Merging consecutive equal data items into one with summed count keeps the list of fields with their usage, string and designator when every merged item has one of each (or none does).","every push-free stream with uniform locals ending with a non-data main item","All streams and merge boundaries.",O+"main_merge.py:MainMerge")
p("C38","Physical merging keeps physical ranges","Dropping physical bounds that equal the logical ones keeps every field's effective physical range.","every stream","Depends on the whole history of physical bounds.",O+"physical_merge.py:PhysicalMerge")
p("C39","Designator filtering keeps designators","Dropping a DesignatorIndex(0) that is alone in its run of local items keeps every field's designator (0 meaning none).","every stream","All streams.",O+"designator_uniq.py:DesignatorUniq")
p("C40","Optimised compilation keeps the descriptor's meaning","compile_main with optimisation writes bytes from which a HID host reads exactly the collections and fields of the tree.","every tree of uniform values that compiles","Composition of nine stateful passes over unbounded trees.",D+"compiler.py:compile_main",O+"*.py")
p("C41","converter -O keeps the meaning of ordinary descriptors","Optimising an existing descriptor (16-bit usages after UsagePage items) with converter -O keeps its fields.","every accepted blob","All blobs.","hrdc/converter.py:_main",O+"usage_page.py:UsagePage")
p("C42","Optimised compilation is independent of when the host binds the usage page","As C40 for a host that binds 16-bit usages to the last usage page declared before the main item (HID 1.11, 6.2.2.8; also the library's own Extractor).","every tree of uniform values that compiles","All page interleavings.",O+"usage_page.py:UsagePage",O+"main_merge.py:MainMerge",D+"extractor.py:Extractor.usage")
p("C43","Optimisation never grows the output","The optimised byte output of the compiler is never longer than the unoptimised one.","every tree that compiles","All trees.",O+"*.py")
p("C44","Decompilation keeps report sizes","For every report kind and id, the sizes of the values extracted from an item stream add up to the report's size declared by the stream.","every push-free stream the extractor accepts","All streams.",D+"extractor.py:Extractor")
p("C45","Decompiled values carry the declared attributes","Each extracted value has the usage, flags, size, logical and physical range, unit, exponent, string and designator that a host assigns to the corresponding field.","every push-free accepted stream","All streams.",D+"extractor.py:Extractor.handleDataItem")
p("C46","Report insertion keeps order and ids","The decompiled tree lists values in stream order, each inside a Report with the id in force for it.","every accepted stream","All interleavings of report ids and collections.",D+"extractor.py:Extractor.reportInsert")
p("C47","Decompilation keeps the collection tree","The decompiled tree has the stream's collections, with kinds and usages, including empty ones.","every accepted stream","All streams.",D+"extractor.py:Extractor.leave")
p("C48","Decompile then recompile keeps the report layout","Compiling the decompiled tree yields the same fields at the same bit offsets as the original stream.","every accepted stream","All streams.",D+"extractor.py:Extractor",D+"streamer.py:Streamer")
p("C49","Compile then decompile gives the tree's values back","Decompiling the unoptimised stream of a tree gives back its values, in order, with the same attributes.","every tree of well-formed values of count 1 or of buffered bytes","All trees.",D+"streamer.py:Streamer",D+"extractor.py:Extractor")
p("C50","Dumped scripts rebuild the value","Evaluating the call printed by the Dumper for a value rebuilds a Value with the same attributes.","every value the extractor can produce","All values.",D+"dumper.py:Dumper.element")
p("C51","Names do not reach the output","Two trees that are the same but for the names of constants compile to the same bytes, or fail with the same exception, optimised or not, whatever usages are registered.","every pair of such trees whose collection types are not negative, every registry","All trees and registries.",D+"streamer.py:Streamer",D+"compiler.py:compile_main","hrdc/stream/optimizer")
p("C52","A dumped script compiles to the bytes of its tree","Running the script printed by the decompiler compiles to the same bytes as the decompiled tree, optimised or not.","every blob the decompiler accepts","All blobs.",D+"dumper.py:Dumper",D+"extractor.py:main",D+"compiler.py:compile_main")
p("C53","Bytes to script and back keep the report layout","Compiling the script printed by the decompiler gives a descriptor with the same fields at the same bit offsets as the original one.","every blob the decompiler accepts","All blobs.",D+"extractor.py:Extractor",D+"dumper.py:Dumper",D+"streamer.py:Streamer")
p("C54","The decompiler accepts ordinary descriptors","Every byte string that is a sequence of known items, without Push and Pop, that closes its collections is decompiled to a tree without an exception.","every such byte string and every registry","All byte strings; the exceptions come from combinations of usages, logical ranges and collections.",D+"extractor.py:Extractor.handleDataItem",B+"Parser.blobParse")
p("C55","The compiler accepts exactly the trees whose numbers fit","Without optimisation a tree compiles exactly when each number fits in its item, each collection has a usage, and each value is an Input, Output or Feature in a report of id 0 to 255; nothing is silently truncated and nothing valid is refused.","every tree whose collection types are not negative and whose alignments are at most 2^32","All trees and all integers on both sides of each limit.",D+"streamer.py:Streamer",D+"compiler.py:compile_main",I+"Item.bytes")
p("C56","Optimising never makes a compilation fail","A tree that compiles without optimisation compiles with it.","every tree made by the constructors","Counts are added by MainMerge, over any number of fields.",O+"main_merge.py:MainMerge",O+"*.py",D+"compiler.py:compile_main")
p("C57","Decompiled trees compile","A tree the decompiler makes out of a byte string can be compiled, whatever usages are registered.","every byte string the decompiler accepts and every registry","All byte strings; the tree has numbers computed from several items (usages with pages, expanded ranges, padding sizes).",D+"extractor.py:Extractor._append",D+"extractor.py:Extractor.handleDataItem",D+"streamer.py:Streamer",D+"compiler.py:compile_main")
p("C58","Decompiling and compiling again always works and keeps the layout","A byte string that is decompiled and compiled again, with or without optimisation, directly or through the printed script, raises no exception and gives bytes in which a host finds the same fields in the same places of the same reports.","every byte string that is a well-formed report descriptor","All descriptors, through the parser, the decompiler, the printer, the compiler and the optimiser together.",D+"extractor.py:main",D+"compiler.py:compile_main",D+"streamer.py:Streamer",O+"*.py")
p("C59","Text formats lose nothing in the converter","For every input format, with and without -O, the converter writes hex or C code exactly when it writes binary, and on the text every tool does what it does on the bytes; names of other formats are refused.","every input, registry of printable names and text encoding that keeps ASCII","All inputs and all names: the comments contain names that the parser must skip.","hrdc/converter.py:_main","hrdc/stream/parser/code.py:Code","hrdc/stream/formatter/code.py:Code","hrdc/stream/parser/hex.py:Hex","hrdc/stream/formatter/hex.py:Hex")
p("C60","Text formats lose nothing in the compiler","The compiler writes hex or C code exactly when it writes binary, and the converter and the decompiler make the same of both.","every tree and registry of printable names","All trees and names.",D+"compiler.py:compile_main","hrdc/stream/formatter/code.py:Code","hrdc/stream/formatter/hex.py:Hex")
p("C61","descriptor_expected checks the compiler's output","The helper for tests passes exactly when the expected C code holds the bytes the optimising compiler writes; it passes on the compiler's own C code.","every tree and every expected text","It is the means of testing; nothing tests it.",D+"test.py:descriptor_expected","hrdc/stream/comparer.py:ExpectedStream")
p("C62","Named files work like standard input and output","The tools do the same when given file names as with standard input and output, in every format.","every input and format","The tests never open a file.","hrdc/converter.py:_main",D+"compiler.py:compile_main",D+"extractor.py:main","hrdc/stream/parser/binary.py:Binary","hrdc/stream/formatter/binary.py:Binary")
p("C63","Decompiling does not depend on names","With two registries that agree on which usages are of type NamedArray, the decompiler gives the same tree up to names, or the same exception.","every blob and every two registries","All registries.",D+"extractor.py:Extractor","hrdc/stream/parser/base.py:Parser.append","hrdc/usage/usage.py:Usage.lookup")
p("C64","Compiled trees come back from their bytes","Decompiling the unoptimised bytes of a compiled tree gives back every value with data, with its attributes, report id and enclosing collections, whatever the two registries are.","every tree, every two registries","Values of any number and nesting; registries differ between compiler and decompiler.",D+"compiler.py:compile_main",D+"extractor.py:main",D+"streamer.py:Streamer",D+"extractor.py:Extractor.handleDataItem")
p("C65","Optimised descriptors decompile to the same fields","Decompiling the optimised bytes of a compiled tree succeeds and gives the collections and fields of that tree, in order.","every tree, every two registries","Joined main items, ranges and moved pages come from any number of values; every combination of neighbours counts.",O+"base.py:Optimizer",O+"main_merge.py:MainMerge",O+"range_merge.py:RangeMerge",O+"usage_page.py:UsagePage",D+"extractor.py:Extractor.handleDataItem",D+"compiler.py:compile_main")
p("C66","Optimising again changes nothing","Each optimiser pass, run on its own output, changes nothing.","every stream of items","All streams; a pass holds back items and remembers values, so a second run starts in another state than the first ended.",O+"designator_uniq.py:DesignatorUniq",O+"physical_merge.py:PhysicalMerge",O+"global_merge.py:GlobalMerge",O+"range_merge.py:RangeMerge",O+"main_merge.py:MainMerge",O+"usage_page.py:UsagePage")
p("C67","Equal items are items with equal bytes","Item equality is an equivalence, and two constructed items are equal exactly when they serialise to the same bytes.","every two items made by the constructors","All values of all classes, under every name.",I+"Item.__eq__",I+"Item.bytes")
p("C68","Items are ordered","Item comparison with < is a strict order compatible with equality.","every two or three items","All pairs and triples.",I+"Item.__lt__")
p("C69","Named constants combine like their numbers","Every expression over named constants and ints evaluates to what it would with plain ints, and comparisons agree with those of the ints.","every expression and every value","All expressions; the reflected methods are separate code.","hrdc/util/named_constant.py:NamedConstant")
p("C70","The shipped descriptors survive compilation, optimisation and decompilation","Each descriptor of examples/ and tests/issue_7 compiles with and without optimisation, to fewer bytes with it; both outputs have one and the same reading by any host, which consists of the collections and values of the tree in order, in their reports and aligned; the optimised bytes decompile to a tree of these collections and values.","the four trees; every registry of the compiler and of the decompiler, every host, every reading of the bytes","The tests compare bytes with expected bytes; they do not say what a host reads from them, nor that nothing depends on the registered usages.","examples/keyboard.py:1-34","examples/mouse.py:1-22","examples/battery.py:1-14","tests/issue_7/test.py:6-14")
p("C71","The code parser reads C initialisers","For every text of a C array initialiser (integer constants below 256 separated by commas, white space, line and block comments), the code parser gives the bytes the C compiler would.","every initialiser, whatever its comments and white space","The only texts tested are those of the formatter; comments are free text.","hrdc/stream/parser/code.py:5-12","hrdc/stream/comparer.py:10-15")
p("C72","Text that is not bytes is rejected","The text parsers raise an exception for every text that is not the text of some bytes.","every text","All texts; a parser that drops or reinterprets is noticed only on input nobody wrote a test for.","hrdc/stream/parser/code.py:5-12","hrdc/stream/parser/hex.py:5-8")
p("C73","Comments in C output say what the bytes say","In the C output for any bytes, the comment of each line has the HID name of the item and names its number: the flags set, the collection type, the unit, the usage page, the usage in the page in force, else the digits. With the shipped usages no two different items have the same comment.","every blob the parser accepts, every registry; every two items of 32 bits","Names are never compared with bytes by a test, and there are 2^32 numbers per item.","hrdc/stream/formatter/code.py:8-16","hrdc/stream/item.py:67-71","hrdc/stream/item.py:191-223","hrdc/stream/parser/base.py:38-48","hrdc/usage/usage.py:13-67")
p("C74","Usage constants have the numbers of the HID Usage Tables","Every constant of a usage module has the page and number the HID Usage Tables give to the usage of that name, and looking that number up gives the constant.","every one of the 1300 usages of the fifteen pages listed","Tests use a dozen constants; a wrong number is invisible to every test that uses the same constant on both sides.","hrdc/usage/*.py",U+"Usage.lookup")
p("C75","C output is a C initialiser of the bytes","The text the code formatter writes for any items whose names have no newline is, by the rules of C for constants, commas, white space and comments, the list of an initialiser of exactly the bytes of the items, has no other reading, and no comment is continued past its line.","every list of items with bytes, names of any other characters","Tests read the output with the package's own parser, which differs from C; names in comments may hold slashes, stars, backslashes.","hrdc/stream/formatter/code.py:8-16","hrdc/stream/item.py:67-71")
p("C76","The layout of a compiled tree is computed from the tree","A host reads from the output exactly this layout: the collections and values in order; each value in the report with a non-zero id entered last; before a value of alignment a > 1, -n mod a constant bits, n being the bits counted so far for its kind in the report entered last (zero or not), each value counting its gap and one repetition; nothing else. Optimised, trees that end in a collection keep the places and the lengths of the reports, and under the conditions of C40 the whole layout.","every tree built by the constructors that compiles","All combinations of counts, alignments, kinds and nested reports, right or wrong.",D+"streamer.py:Streamer",D+"compiler.py:compile_main")
p("C77","Optimised output repeats no global item","In the bytes written with optimisation no global item, Push and Pop aside, writes the number last written for it, nor a default of 0 (physical range, unit and exponent) where nothing was written.","every tree the optimising compiler compiles, every blob converter -O converts","All streams; repeats arise between passes that each remove their own.",O+"global_merge.py:GlobalMerge",O+"usage_page.py:UsagePage",O+"base.py:Optimizer","doc/optimizations.rst")
p("C78","Printing a tree as a script gives the tree back","Running the script the Dumper prints for a tree that a script built gives the same tree, names of constants aside.","every tree built by a script from ints and the constants of the package","All trees and all combinations of optional arguments; the Dumper leaves out what it takes for a default.",D+"dumper.py:Dumper",D+"descriptor.py:Value",D+"descriptor.py:Padding",D+"descriptor.py:Align",U+"Usage.__str__")
p("C79","Fields alike become one main item","Of the main items of a descriptor the optimiser makes exactly these: consecutive data items of the same kind and flags, described by the same globals and with one field each up to the last, become one with the sum of the fields; all others stay.","every tree the compiler takes; every well-formed blob","All interleavings of globals, collections and data items; a pass that stops merging changes no meaning and no test counts items.","hrdc/stream/optimizer/main_merge.py:MainMerge","doc/optimizations.rst")
p("C80","Runs of numbers become ranges","In optimised output no main item has three or more consecutive usages, strings or designators written one by one.","every well-formed tree; every blob whose usages have their pages","All lists of local items, also those joined from several fields.","hrdc/stream/optimizer/range_merge.py:RangeMerge","hrdc/stream/optimizer/usage_page.py:UsagePage","doc/optimizations.rst")
p("C81","Defaults are not written","Units, exponents and physical bounds that are only ever 0, and designators 0, do not appear in optimised output; PhysicalMerge leaves only physical bounds that differ from the logical ones and DesignatorUniq no designator 0 alone.","every well-formed tree; every blob; every stream for the passes","All streams; leaving defaults in changes no meaning.","hrdc/stream/optimizer/physical_merge.py:PhysicalMerge","hrdc/stream/optimizer/designator_uniq.py:DesignatorUniq","hrdc/stream/optimizer/global_merge.py:GlobalMerge","doc/optimizations.rst")
p("C82","Devices with reports of their own compile one after the other","Without optimisation, two lists of members of a TopLevel whose values are in different reports, those of the second all after a Report, compile together exactly when each compiles, and the bytes are those of the first followed by those of the second: no state leaks from one device into another.","every two lists of members that share no report, every registry","All pairs of trees; the Streamer keeps the current report and 768 counters from one device to the next.",D+"streamer.py:Streamer",D+"compiler.py:compile_main")
p("C83","Which labels the decompiler reads","Before each main item the decompiler reads the single usages (strings, designators) if there are any, and otherwise only the last minimum and the last maximum: dropping all other bounds from a stream changes neither the tree nor whether, and with which exception, it is rejected.","every item stream, every registry","All streams, including repeated, unpaired and mixed bounds that no compiler emits.",D+"extractor.py:Extractor")
p("C84","Numbers are parsed as plain ints","In every item read from a blob or from a file in any format, the number of a logical or physical bound, unit exponent, report size, id, count, string or designator is a plain int, never a NamedConstant: the subtractions and ranges the decompiler and MainMerge compute cannot fail for lack of an operator.","every blob, every file content, every registry","All inputs.","hrdc/stream/parser/base.py:Parser.append","hrdc/stream/item.py:Item.parse")
p("C85","What an interrupted run has written","When the compiler or the converter ends with an exception, the output holds whole items only. Without the optimiser it begins with everything compiled from the members before the failing one. For a tree with one collection around everything the output then declares nothing or leaves that collection open, optimised or not, so it never passes for a complete descriptor. The converter writes exactly the items of the longest well-formed beginning of its input, with -O a beginning of what that part alone would give. The hex and code formats hold the same bytes.","every tree, blob and registry; with and without the optimiser; each format","Interrupted runs at every possible point cannot be enumerated.","hrdc/descriptor/streamer.py:Streamer.element","hrdc/descriptor/compiler.py:compile_main","hrdc/converter.py:_main","hrdc/stream/formatter/binary.py:Binary.append")
p("C86","Units measure what their names say","A system of units combined with exponents by | is the unit code that the HID specification (6.2.2.7) gives to the product of those base units, for every system and all exponents from -8 to 7; and every constant of Unit (Centimeter ... Volt) is a unit code of the dimension it is named after.","every system, all exponents; every constant","16^6 combinations of exponents.","hrdc/stream/item.py:_unit_nibble","hrdc/stream/item.py:Unit")
p("C87","Flags, collection types and ways are those of the HID specification","Whatever flag words of Value a script joins with |, in any order, grouping and repetition, bit k of the result is set exactly when the word the HID specification (6.2.2.5) gives to 1 in bit k is among them, and nothing above bit 8 is; the types of Collection are numbered as in 6.2.2.6 and Input, Output and Feature are the tags of those items.","every expression of flag words joined by |; every name of Collection","Unboundedly many expressions; a test fixes one combination at a time.","hrdc/stream/item.py:DataItem","hrdc/stream/item.py:Collection","hrdc/descriptor/descriptor.py:Value","hrdc/util/named_constant.py:NamedConstant")
p("C88","Trees built by append and pop","However a script calls append and pop on a TopLevel, Report or Collection, it ends up as if written out with the members left over, and fails exactly when it pops from an empty one; through any chain of indices t[i][j]... (negative ones included) append and pop change the last member of the node reached and nothing else in the tree.","every tree, every sequence of calls, every chain of indices","Unboundedly many call sequences and trees.","hrdc/descriptor/descriptor.py:Hierarchical")
p("C89","Saying something again makes no difference to optimised output","If one item is added to a stream or blob that only says again what is in force already (the last item of its class gave the same number, or there is none and the number is the default), the optimised output and the outcome of converter -O stay the same.","every stream and blob, every place in it, every class of global item","Redundancy can be anywhere in unboundedly many streams; the passes hold items back and merge across it.","hrdc/stream/optimizer/global_merge.py:GlobalMerge","hrdc/stream/optimizer/main_merge.py:MainMerge","hrdc/stream/optimizer/physical_merge.py:PhysicalMerge","hrdc/converter.py:_main")
p("C90","Shorthands compile like what they stand for","A TopLevel inside a tree is its members; the members of a Report may as well follow it; the alignment of a Value is an Align before it; an Align is a Padding of fewer bits than its boundary; a Padding is a constant Value that is not aligned. Replacing one by the other anywhere in a tree, any number of times, compiles to the same bytes or raises the same exception, optimised or not.","every tree, every place in it, every combination of the rules","Unboundedly many trees and places.","hrdc/descriptor/streamer.py:Streamer.element","hrdc/descriptor/streamer.py:Streamer.enter","hrdc/descriptor/descriptor.py:Align","hrdc/descriptor/descriptor.py:Padding","hrdc/descriptor/descriptor.py:TopLevel")
p("C91","The order of global items makes no difference to optimised output","If global items that stand next to each other in a stream or blob change places, optimising still succeeds or fails alike; the optimised output has the same items in some order, the same number of bytes, and a host reads the same fields, usages and collections in it.","every stream and blob, any number of trades anywhere in it","The passes hold global items back, compare them with what was said and merge main items across them; orders and streams are unboundedly many.","hrdc/stream/optimizer/main_merge.py:MainMerge","hrdc/stream/optimizer/global_merge.py:GlobalMerge","hrdc/stream/optimizer/physical_merge.py:PhysicalMerge","hrdc/stream/optimizer/range_merge.py:RangeMerge","hrdc/converter.py:_main")
p("C92","What the decompiler writes to standard output is the script","When the decompiler succeeds and no output file is named, standard output holds the script and nothing else, so that it can be redirected to a file or piped to the interpreter; it rebuilds the decompiled tree.","every byte string that the decompiler accepts, every registry","All descriptors; the Extractor may print before the script is written, depending on usages, logical ranges, report counts and enclosing collections.",D+"extractor.py:Extractor.handleDataItem",D+"extractor.py:main","hrdc/usage/usage.py:UsageRange.from_array")
p("C93","The decompiler depends only on what each main item says","Two descriptors whose main items show the same decompile to the same tree up to the names of numbers (or raise the same exception), and so compile again to the same bytes. A collection shows its kind and first usage, its end nothing, constants their report and number of bits, data the global table, the usages with their page, strings, designators and flags. How this was said (order of items between main items, short or extended usages, single labels or ranges, Push, Pop and Delimiter, values overwritten before use) does not matter.","every two readable byte strings whose items carry numbers of their class, every registry","All pairs of descriptors of any length; the Extractor keeps globals, locals and levels from item to item.",D+"extractor.py:Extractor._append",D+"extractor.py:Extractor.handleDataItem",D+"extractor.py:Extractor.usage")
p("C94","Descriptors one after the other decompile to both trees","If a descriptor closes what it opens, and the main items of another show the same after it as on their own (its globals are set again where they matter), then the two in a row decompile to the members of the first tree followed by those of the second (up to the names of numbers), where a Report that the first ends with goes on if the second begins with one of the same id. An exception of the second alone is raised for both, but for the AttributeError of a descriptor in which no collection is closed.","every two readable byte strings whose items carry numbers of their class, every registry","All pairs of descriptors; the Extractor keeps globals, locals, levels and the root across the border.",D+"extractor.py:Extractor._append",D+"extractor.py:Extractor.reportInsert",D+"extractor.py:Extractor.ended")
p("C95","Decompiling a compiled decompiled descriptor finds the same values","If a byte string decompiles to a tree and the tree compiles, decompiling the unoptimised result gives back every value with data of that tree, with its attributes, report id and enclosing collections.","every byte string, every three registries","Byte strings are of any length and items; each decompiled tree has to be compiled and decompiled again with other registries.",D+"extractor.py:main",D+"extractor.py:Extractor",D+"compiler.py:compile_main",D+"streamer.py:Streamer",D+"binary.py:Parser.parse")
p("C96","Scripts are printed whole","Printing a tree made of constructed values never raises an exception, so that the decompiler either fails before it writes anything of the script or writes all of it, from the imports to the call of compile_main.","every tree, byte string, registry and indentation","The exceptions a printer can raise depend on the values of the tree.",D+"dumper.py:Dumper",D+"extractor.py:main",D+"descriptor.py:Value")
p("C97","Report ids of compiled descriptors","The ReportID items of a compiled descriptor carry the ids of the tree's Reports other than Report(0), in order, and each is from 1 to 255; the optimiser adds none.","every tree and registry","Reports may be nested in any way in a tree of any size.",D+"streamer.py:Streamer",D+"descriptor.py:Report",D+"compiler.py:compile_main")
p("C98","Reports are all numbered or none is","In a compiled descriptor either every field a host reads is in a report with an id, or none is: HID does not allow a report without id beside one that has an id.","every tree and registry, optimised or not","The report of a field depends on all that comes before it in the tree.",D+"streamer.py:Streamer",D+"descriptor.py:Report",D+"compiler.py:compile_main")
p("C99","Reports do not influence each other","Two trees with the same values in the Reports of some id compile to descriptors in which a host finds the same fields in that report, whatever values, Reports and collections come between them.","every pair of trees and registries, every report id","Pairs of trees of any size.",D+"streamer.py:Streamer",D+"descriptor.py:Report",D+"compiler.py:compile_main")
p("C100","Renumbering the Reports renumbers the fields","Giving the Reports of a tree other ids, different ones for different ones, changes only the ids of the fields a host reads in the compiled descriptor; kinds, ids and sizes also when optimised; and the renumbered tree compiles if the new ids are from 0 to 255.","every tree, registry and injective renumbering that keeps 0","All trees and all renumberings.",D+"streamer.py:Streamer",D+"descriptor.py:Report",D+"compiler.py:compile_main")
p("C101","What follows does not change the bytes before","When members are added at the end of a tree, of its last collection or Report and so on, the bytes of the descriptor so far stay the same, but for the ends of the collections that go on.","every pair of such trees and registry","Additions at any depth of trees of any size.",D+"streamer.py:Streamer",D+"descriptor.py:Hierarchical",D+"compiler.py:compile_main")
p("C102","The length of a report is that of its values","In a compiled descriptor, optimised or not, the Input, Output or Feature report of some id has as many bits as the values of that kind in the Reports of that id have together, if none is aligned; with alignment at most the alignments less one are added.","every tree, registry, kind and report id","Sums over trees of any size.",D+"streamer.py:Streamer",D+"descriptor.py:Value",D+"compiler.py:compile_main")
p("C103","Collections do not change the fields","Two trees with the same Reports and values from top to bottom compile to descriptors in which a host reads the same fields, whatever collections are around them; kinds, ids and sizes also when optimised.","every pair of such trees and registries","Pairs of trees of any size and nesting.",D+"streamer.py:Streamer",D+"descriptor.py:Collection",D+"compiler.py:compile_main")
p("C104","What follows a closed tree does not change its optimised bytes","When a tree ends with a collection and members are added after it, not in it, the optimised bytes of the tree begin those of the longer one, and the tree compiles if the longer one does.","every pair of such trees and registry","Additions of any size after trees of any size, through eight passes that hold items back.",O+"main_merge.py:MainMerge",O+"range_merge.py:RangeMerge",D+"streamer.py:Streamer",D+"compiler.py:compile_main")
if __name__=="__main__":
    for x in P: print(json.dumps(x))
