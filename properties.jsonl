{"id": "C01", "title": "Item encode/decode round trip", "statement": "For every item class and every value in the class's 32-bit range, Item.parse(item.bytes()) is an item equal (==) to the original one.", "quantifier": "all 27 item classes, all 2^32 values of each (signed or unsigned)", "why_tests_cant": "The value space is 27 x 2^32 with width and sign boundaries; the test suite checks about 14 values.", "anchors": ["hrdc/stream/item.py:Item.bytes", "hrdc/stream/item.py:Item.parse", "hrdc/stream/item.py:Item.__eq__"]}
{"id": "C02", "title": "Unrepresentable values are rejected, never truncated", "statement": "item.bytes() succeeds exactly when the value fits 32 bits in the class's signedness; otherwise it raises and writes no bytes.", "quantifier": "every item class and every integer (unbounded)", "why_tests_cant": "Needs all integers on both sides of the range.", "anchors": ["hrdc/stream/item.py:Item.bytes"]}
{"id": "C03", "title": "Minimal payload width", "statement": "The payload written has the smallest width among 1, 2 and 4 bytes that can hold the value (no payload at all only for EndCollection), so no shorter payload decodes to the same value.", "quantifier": "every item class and representable value", "why_tests_cant": "Boundaries depend on sign and on a logarithm; only a universal statement covers all.", "anchors": ["hrdc/stream/item.py:Item.bytes"]}
{"id": "C04", "title": "Bytes are HID short items", "statement": "The bytes written for an item are a HID short item by the HID 1.11 wire format: prefix byte = tag, type, size code; little-endian payload; signed items in two's complement. An independent decoder of the wire format reads back the class's type and tag and the item's value.", "quantifier": "every item class and representable value", "why_tests_cant": "Quantifies over the whole value range; an independent decoder is needed as oracle.", "anchors": ["hrdc/stream/item.py:Item.bytes", "hrdc/stream/item.py:MainItem", "hrdc/stream/item.py:GlobalItem", "hrdc/stream/item.py:LocalItem"]}
{"id": "C05", "title": "Parsing a serialised stream gives the stream back", "statement": "Feeding the concatenated bytes of any list of items to blobParse appends to the output exactly the same items (==), in order, then closes the output once.", "quantifier": "every finite list of representable items", "why_tests_cant": "Lists of any length and content.", "anchors": ["hrdc/stream/parser/base.py:Parser.blobParse", "hrdc/stream/parser/base.py:Parser.append"]}
{"id": "C06", "title": "Parser accepts exactly well-formed blobs", "statement": "blobParse succeeds on a byte string exactly when it is a sequence of complete HID short items whose (type, tag) the library knows and whose EndCollection/Push/Pop payloads are zero; the items delivered carry the tags and values of the wire format.", "quantifier": "every byte string", "why_tests_cant": "All byte strings of all lengths.", "anchors": ["hrdc/stream/parser/base.py:Parser.blobParse", "hrdc/stream/item.py:Item.parse"]}
{"id": "C07", "title": "A bad item stops the parse; nothing before it is lost, nothing after it is delivered", "statement": "If a blob is a sequence of valid items followed by a truncated, unknown or rejected one, exactly the valid prefix is delivered downstream, then the parser raises and does not close the output.", "quantifier": "every valid prefix and every way to break the next item", "why_tests_cant": "Crash point can be anywhere in an unbounded stream.", "anchors": ["hrdc/stream/parser/base.py:Parser.blobParse", "hrdc/stream/item.py:Item.parse"]}
{"id": "C08", "title": "Converter output is a fixed point", "statement": "Converting a blob (no -O, binary to binary) yields bytes that parse to the same items, and converting those bytes again reproduces them identically.", "quantifier": "every accepted blob", "why_tests_cant": "All blobs, including all non-minimal encodings.", "anchors": ["hrdc/converter.py:_main", "hrdc/stream/parser/base.py:Parser.blobParse", "hrdc/stream/formatter/binary.py:Binary.append"]}
{"id": "C09", "title": "Converter preserves the descriptor's meaning", "statement": "Without -O, a host interpreting the output of the converter sees the same collections and fields (report id, kind, flags, size, logical/physical range, unit, usages, strings, designators) as for the input.", "quantifier": "every accepted blob whose 4-byte usages are really extended (page not 0)", "why_tests_cant": "Requires a semantics of whole descriptors for all blobs.", "anchors": ["hrdc/converter.py:_main", "hrdc/stream/parser/base.py:Parser.append"]}
{"id": "C10", "title": "Hex text round trip", "statement": "The text written by the hex formatter, read by the hex parser, gives the same bytes; more generally any sequence of two-digit hex tokens separated by non-word characters, with or without 0x, is read as exactly these bytes.", "quantifier": "every list of items / every byte list and separator", "why_tests_cant": "All byte strings and separators; regular-expression scanning.", "anchors": ["hrdc/stream/formatter/hex.py:Hex.append", "hrdc/stream/parser/hex.py:Hex.read"]}
{"id": "C11", "title": "C code text round trip", "statement": "The text written by the code formatter, read by the code parser, gives the same bytes, whatever the names shown in the comments (as long as they contain no newline) and whatever the indentation.", "quantifier": "every list of items with any names", "why_tests_cant": "Comments contain arbitrary names that might contain comment or byte-like text.", "anchors": ["hrdc/stream/formatter/code.py:Code.append", "hrdc/stream/parser/code.py:Code.read"]}
{"id": "C12", "title": "Indentation follows collection nesting", "statement": "In code output each line is indented by 4 spaces per enclosing open collection, and closing warns exactly when Collection and EndCollection counts differ.", "quantifier": "every list of items", "why_tests_cant": "Nesting unbounded.", "anchors": ["hrdc/stream/formatter/code.py:Code"]}
{"id": "C13", "title": "ExpectedStream passes exactly on equal bytes", "statement": "A run of append for every item followed by close passes all its assertions exactly when the concatenation of the items' bytes equals the expected bytes.", "quantifier": "every list of items and expected byte string", "why_tests_cant": "The test helper itself must have no false positive or negative.", "anchors": ["hrdc/stream/comparer.py:ExpectedStream"]}
{"id": "C14", "title": "Unit composition is faithful", "statement": "Composing a unit system with length, mass, time, temperature, current and luminous-intensity exponents in [-8,7] by | gives a 28-bit value from whose nibbles (two's complement) all exponents and the system can be read back; exponents outside [-8,7] are rejected.", "quantifier": "all systems 0..15 and all exponent tuples / all integers for rejection", "why_tests_cant": "16^7 combinations.", "anchors": ["hrdc/stream/item.py:_unit_nibble", "hrdc/stream/item.py:Unit"]}
{"id": "C15", "title": "Constructors keep the number they are given", "statement": "Constructing any item from an integer or constant (including conversion to a named unit, flag set, collection kind or usage) keeps its integer value; negative values for unsigned classes are rejected; None for an optional value means 0.", "quantifier": "all item classes and all values", "why_tests_cant": "All values for all classes; names are substituted from tables.", "anchors": ["hrdc/stream/item.py:Item.__init__", "hrdc/stream/item.py:Unit.__init__", "hrdc/stream/item.py:DataItem.__init__", "hrdc/stream/item.py:Collection.__init__", "hrdc/stream/item.py:Usage.__init__"]}
{"id": "C16", "title": "Usage page/id split is lossless", "statement": "For every usage value 0..2^32-1, lookup keeps the number and split gives page = value>>16 and id = value & 0xffff, whatever the registered names; inpage(page, id) gives back id.", "quantifier": "every value and every registry content", "why_tests_cant": "2^32 values times any registry history.", "anchors": ["hrdc/usage/usage.py:Usage.lookup", "hrdc/usage/usage.py:Usage.split", "hrdc/usage/usage.py:Usage.inpage"]}
{"id": "C17", "title": "UsageRange enumerates its bounds", "statement": "Iterating a UsageRange yields exactly the usages min..max in order, len() of them; r[i] agrees with iteration for 0 <= i < len; from_array accepts exactly contiguous arrays of at least two elements and the resulting range iterates back to the array.", "quantifier": "all bounds / all arrays", "why_tests_cant": "Unbounded ranges and arrays.", "anchors": ["hrdc/usage/usage.py:UsageRange"]}
{"id": "C18", "title": "UsageRange indexing behaves like a list's", "statement": "r[i] raises IndexError outside -len..len-1 and r[-1] is the last element (doc: 'behaves like a Python list (operators len, [] and iterable)').", "quantifier": "all ranges and indices", "why_tests_cant": "All indices.", "anchors": ["hrdc/usage/usage.py:UsageRange.__getitem__"]}
{"id": "C19", "title": "Usage constants are unambiguous", "statement": "Usage.lookup(int(u)) returns the very constant u for every usage constant the package defines: no two constants share a number.", "quantifier": "every constant defined by hrdc.usage (about 1600)", "why_tests_cant": "Tests look at a handful of constants.", "anchors": ["hrdc/usage/*.py", "hrdc/usage/usage.py:Usage.reverse"]}
{"id": "C20", "title": "Printed usage names evaluate to the constant", "statement": "The str() of each package usage constant, evaluated as Python after 'from hrdc.usage import *', denotes that constant; the decompiler relies on this.", "quantifier": "every constant defined by hrdc.usage", "why_tests_cant": "Tests look at a handful of constants.", "anchors": ["hrdc/usage/*.py", "hrdc/descriptor/dumper.py:Dumper.element"]}
{"id": "C21", "title": "Usage constants lie on their module's page", "statement": "All constants of a usage module have the same usage page (high 16 bits), the page whose name table entry is that module's.", "quantifier": "every constant defined by hrdc.usage", "why_tests_cant": "Tests look at a handful of constants.", "anchors": ["hrdc/usage/*.py", "hrdc/usage/usage.py:Usage.pageName"]}
{"id": "C22", "title": "Value defaults are normalised", "statement": "Value() rejects non-constant values without logical bounds or named array; when both physical bounds are missing or zero they are set to the logical bounds given; a named array gets logicalMax = logicalMin+len-1 and flags Array (or Variable when a usage is given); default alignment is min(8,size).", "quantifier": "all argument combinations", "why_tests_cant": "Argument space is unbounded.", "anchors": ["hrdc/descriptor/descriptor.py:Value.__init__"]}
{"id": "C23", "title": "Compiler output has balanced collections", "statement": "For every descriptor tree that compiles, the item stream (optimised or not) has every Collection closed by a matching EndCollection, never more ends than starts in any prefix.", "quantifier": "every tree, every depth", "why_tests_cant": "Unbounded trees.", "anchors": ["hrdc/descriptor/streamer.py:Streamer", "hrdc/descriptor/descriptor.py:Hierarchical.accept"]}
{"id": "C24", "title": "Compilation is faithful and leak-free", "statement": "The unoptimised stream, interpreted by a HID host, declares exactly the fields the tree declares, in order, each with its own flags, size, count, logical and physical range, unit, usages, string and designator, independently of what precedes it, inside the right collections.", "quantifier": "every tree whose values are well-formed", "why_tests_cant": "Item globals persist, so any earlier element could leak into a later one; unbounded trees.", "anchors": ["hrdc/descriptor/streamer.py:Streamer.element", "hrdc/descriptor/streamer.py:Streamer.enter"]}
{"id": "C25", "title": "Report ids scope over subtrees", "statement": "Each field is in the report of the innermost enclosing Report (0 when none).", "quantifier": "every tree", "why_tests_cant": "Any interleaving of Reports in the tree.", "anchors": ["hrdc/descriptor/streamer.py:Streamer.enter", "hrdc/descriptor/descriptor.py:Report"]}
{"id": "C26", "title": "Alignment is enforced", "statement": "Each Value starts at a bit offset, within its (kind, report id) report as seen by a host, that is a multiple of its alignment; the padding inserted before it is less than the alignment; Align(b) makes the offset a multiple of b.", "quantifier": "every tree with count = 1 values", "why_tests_cant": "All trees and offset histories.", "anchors": ["hrdc/descriptor/streamer.py:Streamer.element"]}
{"id": "C27", "title": "Alignment is enforced for repeated values", "statement": "As C26, for trees containing values with count other than 1.", "quantifier": "every tree", "why_tests_cant": "Bookkeeping error only visible for particular combinations of count and size.", "anchors": ["hrdc/descriptor/streamer.py:Streamer.element"]}
{"id": "C28", "title": "Invalid descriptors are rejected", "statement": "Compiling a tree with a value in a report whose id is not in 0..255, a negative report id, or a collection without usage raises instead of producing output.", "quantifier": "every tree containing such an element anywhere", "why_tests_cant": "Unbounded trees.", "anchors": ["hrdc/descriptor/streamer.py:Streamer"]}
{"id": "C29", "title": "Named arrays are arrays", "statement": "A Value with namedArray compiles to an Array main item (selector index), as HID requires for named arrays, with or without a collection usage.", "quantifier": "every value with a named array", "why_tests_cant": "All values.", "anchors": ["hrdc/descriptor/descriptor.py:Value.__init__", "hrdc/descriptor/streamer.py:Streamer.element"]}
{"id": "C30", "title": "Optimizer.new chains exactly the selected passes", "statement": "Optimizer.new(stream, min, max) behaves like running, in decreasing precedence order, exactly the passes with min < precedence < max, each over the complete output of the previous one; close reaches the stream exactly once.", "quantifier": "every min, max, item list and sink", "why_tests_cant": "Streaming interleaving of passes must equal batch composition for all inputs.", "anchors": ["hrdc/stream/optimizer/base.py:Optimizer.new"]}
{"id": "C31", "title": "Optimiser keeps the collection structure", "statement": "The sequence of Collection and EndCollection items and the number of open collections around every data item is unchanged by optimisation.", "quantifier": "every item stream that ends after its last main item", "why_tests_cant": "All streams.", "anchors": ["hrdc/stream/optimizer/*.py"]}
{"id": "C32", "title": "Optimiser keeps every report's layout size", "statement": "For every report kind and id, optimisation keeps the list of field sizes, hence the total bit length of the report.", "quantifier": "every stream without Push/Pop that ends with a non-data main item", "why_tests_cant": "All streams.", "anchors": ["hrdc/stream/optimizer/main_merge.py:MainMerge", "hrdc/stream/optimizer/*.py"]}
{"id": "C33", "title": "Global merging removes only no-ops", "statement": "For every stream without Push/Pop, removing repeated globals leaves a host's view unchanged, and afterwards no global item sets the value it already has.", "quantifier": "every stream without Push/Pop", "why_tests_cant": "All histories of global state.", "anchors": ["hrdc/stream/optimizer/global_merge.py:GlobalMerge"]}
{"id": "C34", "title": "Global merging respects Push and Pop", "statement": "Same as C33 for streams with Push and Pop.", "quantifier": "every stream", "why_tests_cant": "Needs all nestings of Push/Pop.", "anchors": ["hrdc/stream/optimizer/global_merge.py:GlobalMerge"]}
{"id": "C35", "title": "Range merging keeps the expanded lists", "statement": "For usages, strings and designators, replacing consecutive single items by a minimum/maximum pair keeps the list of values a host expands for each main item, and single values are merged whenever they are all consecutive.", "quantifier": "every stream without Delimiter items", "why_tests_cant": "Unbounded lists of locals.", "anchors": ["hrdc/stream/optimizer/range_merge.py:RangeMerge"]}
{"id": "C36", "title": "Usage page splitting keeps full usages", "statement": "Splitting 32-bit usages into UsagePage + 16-bit usage keeps the full usage a host reads (page in force at the declaration), and a UsagePage item is inserted only when the page changes.", "quantifier": "every stream of 32-bit usages without Push/Pop", "why_tests_cant": "All page histories.", "anchors": ["hrdc/stream/optimizer/usage_page.py:UsagePage"]}
{"id": "C37", "title": "Main merging keeps the fields", "statement": "Merging consecutive equal data items into one with summed count keeps the list of fields with their usage, string and designator when every merged item has one of each (or none does).", "quantifier": "every push-free stream with uniform locals ending with a non-data main item", "why_tests_cant": "All streams and merge boundaries.", "anchors": ["hrdc/stream/optimizer/main_merge.py:MainMerge"]}
{"id": "C38", "title": "Physical merging keeps physical ranges", "statement": "Dropping physical bounds that equal the logical ones keeps every field's effective physical range.", "quantifier": "every stream", "why_tests_cant": "Depends on the whole history of physical bounds.", "anchors": ["hrdc/stream/optimizer/physical_merge.py:PhysicalMerge"]}
{"id": "C39", "title": "Designator filtering keeps designators", "statement": "Dropping a DesignatorIndex(0) that is alone in its run of local items keeps every field's designator (0 meaning none).", "quantifier": "every stream", "why_tests_cant": "All streams.", "anchors": ["hrdc/stream/optimizer/designator_uniq.py:DesignatorUniq"]}
{"id": "C40", "title": "Optimised compilation keeps the descriptor's meaning", "statement": "compile_main with optimisation writes bytes from which a HID host reads exactly the collections and fields of the tree.", "quantifier": "every tree of uniform values that compiles", "why_tests_cant": "Composition of nine stateful passes over unbounded trees.", "anchors": ["hrdc/descriptor/compiler.py:compile_main", "hrdc/stream/optimizer/*.py"]}
{"id": "C41", "title": "converter -O keeps the meaning of ordinary descriptors", "statement": "Optimising an existing descriptor (16-bit usages after UsagePage items) with converter -O keeps its fields.", "quantifier": "every accepted blob", "why_tests_cant": "All blobs.", "anchors": ["hrdc/converter.py:_main", "hrdc/stream/optimizer/usage_page.py:UsagePage"]}
{"id": "C42", "title": "Optimised compilation is independent of when the host binds the usage page", "statement": "As C40 for a host that binds 16-bit usages to the last usage page declared before the main item (HID 1.11, 6.2.2.8; also the library's own Extractor).", "quantifier": "every tree of uniform values that compiles", "why_tests_cant": "All page interleavings.", "anchors": ["hrdc/stream/optimizer/usage_page.py:UsagePage", "hrdc/stream/optimizer/main_merge.py:MainMerge", "hrdc/descriptor/extractor.py:Extractor.usage"]}
{"id": "C43", "title": "Optimisation never grows the output", "statement": "The optimised byte output of the compiler is never longer than the unoptimised one.", "quantifier": "every tree that compiles", "why_tests_cant": "All trees.", "anchors": ["hrdc/stream/optimizer/*.py"]}
{"id": "C44", "title": "Decompilation keeps report sizes", "statement": "For every report kind and id, the sizes of the values extracted from an item stream add up to the report's size declared by the stream.", "quantifier": "every push-free stream the extractor accepts", "why_tests_cant": "All streams.", "anchors": ["hrdc/descriptor/extractor.py:Extractor"]}
{"id": "C45", "title": "Decompiled values carry the declared attributes", "statement": "Each extracted value has the usage, flags, size, logical and physical range, unit, exponent, string and designator that a host assigns to the corresponding field.", "quantifier": "every push-free accepted stream", "why_tests_cant": "All streams.", "anchors": ["hrdc/descriptor/extractor.py:Extractor.handleDataItem"]}
{"id": "C46", "title": "Report insertion keeps order and ids", "statement": "The decompiled tree lists values in stream order, each inside a Report with the id in force for it.", "quantifier": "every accepted stream", "why_tests_cant": "All interleavings of report ids and collections.", "anchors": ["hrdc/descriptor/extractor.py:Extractor.reportInsert"]}
{"id": "C47", "title": "Decompilation keeps the collection tree", "statement": "The decompiled tree has the stream's collections, with kinds and usages, including empty ones.", "quantifier": "every accepted stream", "why_tests_cant": "All streams.", "anchors": ["hrdc/descriptor/extractor.py:Extractor.leave"]}
{"id": "C48", "title": "Decompile then recompile keeps the report layout", "statement": "Compiling the decompiled tree yields the same fields at the same bit offsets as the original stream.", "quantifier": "every accepted stream", "why_tests_cant": "All streams.", "anchors": ["hrdc/descriptor/extractor.py:Extractor", "hrdc/descriptor/streamer.py:Streamer"]}
{"id": "C49", "title": "Compile then decompile gives the tree's values back", "statement": "Decompiling the unoptimised stream of a tree gives back its values, in order, with the same attributes.", "quantifier": "every tree of well-formed values of count 1 or of buffered bytes", "why_tests_cant": "All trees.", "anchors": ["hrdc/descriptor/streamer.py:Streamer", "hrdc/descriptor/extractor.py:Extractor"]}
{"id": "C50", "title": "Dumped scripts rebuild the value", "statement": "Evaluating the call printed by the Dumper for a value rebuilds a Value with the same attributes.", "quantifier": "every value the extractor can produce", "why_tests_cant": "All values.", "anchors": ["hrdc/descriptor/dumper.py:Dumper.element"]}
{"id": "C51", "title": "Names do not reach the output", "statement": "Two trees that are the same but for the names of constants compile to the same bytes, or fail with the same exception, optimised or not, whatever usages are registered.", "quantifier": "every pair of such trees whose collection types are not negative, every registry", "why_tests_cant": "All trees and registries.", "anchors": ["hrdc/descriptor/streamer.py:Streamer", "hrdc/descriptor/compiler.py:compile_main", "hrdc/stream/optimizer"]}
{"id": "C52", "title": "A dumped script compiles to the bytes of its tree", "statement": "Running the script printed by the decompiler compiles to the same bytes as the decompiled tree, optimised or not.", "quantifier": "every blob the decompiler accepts", "why_tests_cant": "All blobs.", "anchors": ["hrdc/descriptor/dumper.py:Dumper", "hrdc/descriptor/extractor.py:main", "hrdc/descriptor/compiler.py:compile_main"]}
{"id": "C53", "title": "Bytes to script and back keep the report layout", "statement": "Compiling the script printed by the decompiler gives a descriptor with the same fields at the same bit offsets as the original one.", "quantifier": "every blob the decompiler accepts", "why_tests_cant": "All blobs.", "anchors": ["hrdc/descriptor/extractor.py:Extractor", "hrdc/descriptor/dumper.py:Dumper", "hrdc/descriptor/streamer.py:Streamer"]}
{"id": "C54", "title": "The decompiler accepts ordinary descriptors", "statement": "Every byte string that is a sequence of known items, without Push and Pop, that closes its collections is decompiled to a tree without an exception.", "quantifier": "every such byte string and every registry", "why_tests_cant": "All byte strings; the exceptions come from combinations of usages, logical ranges and collections.", "anchors": ["hrdc/descriptor/extractor.py:Extractor.handleDataItem", "hrdc/stream/parser/base.py:Parser.blobParse"]}
{"id": "C55", "title": "The compiler accepts exactly the trees whose numbers fit", "statement": "Without optimisation a tree compiles exactly when each number fits in its item, each collection has a usage, and each value is an Input, Output or Feature in a report of id 0 to 255; nothing is silently truncated and nothing valid is refused.", "quantifier": "every tree whose collection types are not negative and whose alignments are at most 2^32", "why_tests_cant": "All trees and all integers on both sides of each limit.", "anchors": ["hrdc/descriptor/streamer.py:Streamer", "hrdc/descriptor/compiler.py:compile_main", "hrdc/stream/item.py:Item.bytes"]}
{"id": "C56", "title": "Optimising never makes a compilation fail", "statement": "A tree that compiles without optimisation compiles with it.", "quantifier": "every tree made by the constructors", "why_tests_cant": "Counts are added by MainMerge, over any number of fields.", "anchors": ["hrdc/stream/optimizer/main_merge.py:MainMerge", "hrdc/stream/optimizer/*.py", "hrdc/descriptor/compiler.py:compile_main"]}
{"id": "C57", "title": "Decompiled trees compile", "statement": "A tree the decompiler makes out of a byte string can be compiled, whatever usages are registered.", "quantifier": "every byte string the decompiler accepts and every registry", "why_tests_cant": "All byte strings; the tree has numbers computed from several items (usages with pages, expanded ranges, padding sizes).", "anchors": ["hrdc/descriptor/extractor.py:Extractor._append", "hrdc/descriptor/extractor.py:Extractor.handleDataItem", "hrdc/descriptor/streamer.py:Streamer", "hrdc/descriptor/compiler.py:compile_main"]}
{"id": "C58", "title": "Decompiling and compiling again always works and keeps the layout", "statement": "A byte string that is decompiled and compiled again, with or without optimisation, directly or through the printed script, raises no exception and gives bytes in which a host finds the same fields in the same places of the same reports.", "quantifier": "every byte string that is a well-formed report descriptor", "why_tests_cant": "All descriptors, through the parser, the decompiler, the printer, the compiler and the optimiser together.", "anchors": ["hrdc/descriptor/extractor.py:main", "hrdc/descriptor/compiler.py:compile_main", "hrdc/descriptor/streamer.py:Streamer", "hrdc/stream/optimizer/*.py"]}
{"id": "C59", "title": "Text formats lose nothing in the converter", "statement": "For every input format, with and without -O, the converter writes hex or C code exactly when it writes binary, and on the text every tool does what it does on the bytes; names of other formats are refused.", "quantifier": "every input, registry of printable names and text encoding that keeps ASCII", "why_tests_cant": "All inputs and all names: the comments contain names that the parser must skip.", "anchors": ["hrdc/converter.py:_main", "hrdc/stream/parser/code.py:Code", "hrdc/stream/formatter/code.py:Code", "hrdc/stream/parser/hex.py:Hex", "hrdc/stream/formatter/hex.py:Hex"]}
{"id": "C60", "title": "Text formats lose nothing in the compiler", "statement": "The compiler writes hex or C code exactly when it writes binary, and the converter and the decompiler make the same of both.", "quantifier": "every tree and registry of printable names", "why_tests_cant": "All trees and names.", "anchors": ["hrdc/descriptor/compiler.py:compile_main", "hrdc/stream/formatter/code.py:Code", "hrdc/stream/formatter/hex.py:Hex"]}
{"id": "C61", "title": "descriptor_expected checks the compiler's output", "statement": "The helper for tests passes exactly when the expected C code holds the bytes the optimising compiler writes; it passes on the compiler's own C code.", "quantifier": "every tree and every expected text", "why_tests_cant": "It is the means of testing; nothing tests it.", "anchors": ["hrdc/descriptor/test.py:descriptor_expected", "hrdc/stream/comparer.py:ExpectedStream"]}
{"id": "C62", "title": "Named files work like standard input and output", "statement": "The tools do the same when given file names as with standard input and output, in every format.", "quantifier": "every input and format", "why_tests_cant": "The tests never open a file.", "anchors": ["hrdc/converter.py:_main", "hrdc/descriptor/compiler.py:compile_main", "hrdc/descriptor/extractor.py:main", "hrdc/stream/parser/binary.py:Binary", "hrdc/stream/formatter/binary.py:Binary"]}
{"id": "C63", "title": "Decompiling does not depend on names", "statement": "With two registries that agree on which usages are of type NamedArray, the decompiler gives the same tree up to names, or the same exception.", "quantifier": "every blob and every two registries", "why_tests_cant": "All registries.", "anchors": ["hrdc/descriptor/extractor.py:Extractor", "hrdc/stream/parser/base.py:Parser.append", "hrdc/usage/usage.py:Usage.lookup"]}
{"id": "C64", "title": "Compiled trees come back from their bytes", "statement": "Decompiling the unoptimised bytes of a compiled tree gives back every value with data, with its attributes, report id and enclosing collections, whatever the two registries are.", "quantifier": "every tree, every two registries", "why_tests_cant": "Values of any number and nesting; registries differ between compiler and decompiler.", "anchors": ["hrdc/descriptor/compiler.py:compile_main", "hrdc/descriptor/extractor.py:main", "hrdc/descriptor/streamer.py:Streamer", "hrdc/descriptor/extractor.py:Extractor.handleDataItem"]}
{"id": "C65", "title": "Optimised descriptors decompile to the same fields", "statement": "Decompiling the optimised bytes of a compiled tree succeeds and gives the collections and fields of that tree, in order.", "quantifier": "every tree, every two registries", "why_tests_cant": "Joined main items, ranges and moved pages come from any number of values; every combination of neighbours counts.", "anchors": ["hrdc/stream/optimizer/base.py:Optimizer", "hrdc/stream/optimizer/main_merge.py:MainMerge", "hrdc/stream/optimizer/range_merge.py:RangeMerge", "hrdc/stream/optimizer/usage_page.py:UsagePage", "hrdc/descriptor/extractor.py:Extractor.handleDataItem", "hrdc/descriptor/compiler.py:compile_main"]}
{"id": "C66", "title": "Optimising again changes nothing", "statement": "Each optimiser pass, run on its own output, changes nothing.", "quantifier": "every stream of items", "why_tests_cant": "All streams; a pass holds back items and remembers values, so a second run starts in another state than the first ended.", "anchors": ["hrdc/stream/optimizer/designator_uniq.py:DesignatorUniq", "hrdc/stream/optimizer/physical_merge.py:PhysicalMerge", "hrdc/stream/optimizer/global_merge.py:GlobalMerge", "hrdc/stream/optimizer/range_merge.py:RangeMerge", "hrdc/stream/optimizer/main_merge.py:MainMerge", "hrdc/stream/optimizer/usage_page.py:UsagePage"]}
{"id": "C67", "title": "Equal items are items with equal bytes", "statement": "Item equality is an equivalence, and two constructed items are equal exactly when they serialise to the same bytes.", "quantifier": "every two items made by the constructors", "why_tests_cant": "All values of all classes, under every name.", "anchors": ["hrdc/stream/item.py:Item.__eq__", "hrdc/stream/item.py:Item.bytes"]}
{"id": "C68", "title": "Items are ordered", "statement": "Item comparison with < is a strict order compatible with equality.", "quantifier": "every two or three items", "why_tests_cant": "All pairs and triples.", "anchors": ["hrdc/stream/item.py:Item.__lt__"]}
{"id": "C69", "title": "Named constants combine like their numbers", "statement": "Every expression over named constants and ints evaluates to what it would with plain ints, and comparisons agree with those of the ints.", "quantifier": "every expression and every value", "why_tests_cant": "All expressions; the reflected methods are separate code.", "anchors": ["hrdc/util/named_constant.py:NamedConstant"]}
{"id": "C70", "title": "The shipped descriptors survive compilation, optimisation and decompilation", "statement": "Each descriptor of examples/ and tests/issue_7 compiles with and without optimisation, to fewer bytes with it; both outputs have one and the same reading by any host, which consists of the collections and values of the tree in order, in their reports and aligned; the optimised bytes decompile to a tree of these collections and values.", "quantifier": "the four trees; every registry of the compiler and of the decompiler, every host, every reading of the bytes", "why_tests_cant": "The tests compare bytes with expected bytes; they do not say what a host reads from them, nor that nothing depends on the registered usages.", "anchors": ["examples/keyboard.py:1-34", "examples/mouse.py:1-22", "examples/battery.py:1-14", "tests/issue_7/test.py:6-14"]}
{"id": "C71", "title": "The code parser reads C initialisers", "statement": "For every text of a C array initialiser (integer constants below 256 separated by commas, white space, line and block comments), the code parser gives the bytes the C compiler would.", "quantifier": "every initialiser, whatever its comments and white space", "why_tests_cant": "The only texts tested are those of the formatter; comments are free text.", "anchors": ["hrdc/stream/parser/code.py:5-12", "hrdc/stream/comparer.py:10-15"]}
{"id": "C72", "title": "Text that is not bytes is rejected", "statement": "The text parsers raise an exception for every text that is not the text of some bytes.", "quantifier": "every text", "why_tests_cant": "All texts; a parser that drops or reinterprets is noticed only on input nobody wrote a test for.", "anchors": ["hrdc/stream/parser/code.py:5-12", "hrdc/stream/parser/hex.py:5-8"]}
{"id": "C73", "title": "Comments in C output say what the bytes say", "statement": "In the C output for any bytes, the comment of each line has the HID name of the item and names its number: the flags set, the collection type, the unit, the usage page, the usage in the page in force, else the digits. With the shipped usages no two different items have the same comment.", "quantifier": "every blob the parser accepts, every registry; every two items of 32 bits", "why_tests_cant": "Names are never compared with bytes by a test, and there are 2^32 numbers per item.", "anchors": ["hrdc/stream/formatter/code.py:8-16", "hrdc/stream/item.py:67-71", "hrdc/stream/item.py:191-223", "hrdc/stream/parser/base.py:38-48", "hrdc/usage/usage.py:13-67"]}
{"id": "C74", "title": "Usage constants have the numbers of the HID Usage Tables", "statement": "Every constant of a usage module has the page and number the HID Usage Tables give to the usage of that name, and looking that number up gives the constant.", "quantifier": "every one of the 1300 usages of the fifteen pages listed", "why_tests_cant": "Tests use a dozen constants; a wrong number is invisible to every test that uses the same constant on both sides.", "anchors": ["hrdc/usage/*.py", "hrdc/usage/usage.py:Usage.lookup"]}
{"id": "C75", "title": "C output is a C initialiser of the bytes", "statement": "The text the code formatter writes for any items whose names have no newline is, by the rules of C for constants, commas, white space and comments, the list of an initialiser of exactly the bytes of the items, has no other reading, and no comment is continued past its line.", "quantifier": "every list of items with bytes, names of any other characters", "why_tests_cant": "Tests read the output with the package's own parser, which differs from C; names in comments may hold slashes, stars, backslashes.", "anchors": ["hrdc/stream/formatter/code.py:8-16", "hrdc/stream/item.py:67-71"]}
{"id": "C76", "title": "The layout of a compiled tree is computed from the tree", "statement": "A host reads from the output exactly this layout: the collections and values in order; each value in the report with a non-zero id entered last; before a value of alignment a > 1, -n mod a constant bits, n being the bits counted so far for its kind in the report entered last (zero or not), each value counting its gap and one repetition; nothing else. Optimised, trees that end in a collection keep the places and the lengths of the reports, and under the conditions of C40 the whole layout.", "quantifier": "every tree built by the constructors that compiles", "why_tests_cant": "All combinations of counts, alignments, kinds and nested reports, right or wrong.", "anchors": ["hrdc/descriptor/streamer.py:Streamer", "hrdc/descriptor/compiler.py:compile_main"]}
{"id": "C77", "title": "Optimised output repeats no global item", "statement": "In the bytes written with optimisation no global item, Push and Pop aside, writes the number last written for it, nor a default of 0 (physical range, unit and exponent) where nothing was written.", "quantifier": "every tree the optimising compiler compiles, every blob converter -O converts", "why_tests_cant": "All streams; repeats arise between passes that each remove their own.", "anchors": ["hrdc/stream/optimizer/global_merge.py:GlobalMerge", "hrdc/stream/optimizer/usage_page.py:UsagePage", "hrdc/stream/optimizer/base.py:Optimizer", "doc/optimizations.rst"]}
{"id": "C78", "title": "Printing a tree as a script gives the tree back", "statement": "Running the script the Dumper prints for a tree that a script built gives the same tree, names of constants aside.", "quantifier": "every tree built by a script from ints and the constants of the package", "why_tests_cant": "All trees and all combinations of optional arguments; the Dumper leaves out what it takes for a default.", "anchors": ["hrdc/descriptor/dumper.py:Dumper", "hrdc/descriptor/descriptor.py:Value", "hrdc/descriptor/descriptor.py:Padding", "hrdc/descriptor/descriptor.py:Align", "hrdc/usage/usage.py:Usage.__str__"]}
{"id": "C79", "title": "Fields alike become one main item", "statement": "Of the main items of a descriptor the optimiser makes exactly these: consecutive data items of the same kind and flags, described by the same globals and with one field each up to the last, become one with the sum of the fields; all others stay.", "quantifier": "every tree the compiler takes; every well-formed blob", "why_tests_cant": "All interleavings of globals, collections and data items; a pass that stops merging changes no meaning and no test counts items.", "anchors": ["hrdc/stream/optimizer/main_merge.py:MainMerge", "doc/optimizations.rst"]}
{"id": "C80", "title": "Runs of numbers become ranges", "statement": "In optimised output no main item has three or more consecutive usages, strings or designators written one by one.", "quantifier": "every well-formed tree; every blob whose usages have their pages", "why_tests_cant": "All lists of local items, also those joined from several fields.", "anchors": ["hrdc/stream/optimizer/range_merge.py:RangeMerge", "hrdc/stream/optimizer/usage_page.py:UsagePage", "doc/optimizations.rst"]}
{"id": "C81", "title": "Defaults are not written", "statement": "Units, exponents and physical bounds that are only ever 0, and designators 0, do not appear in optimised output; PhysicalMerge leaves only physical bounds that differ from the logical ones and DesignatorUniq no designator 0 alone.", "quantifier": "every well-formed tree; every blob; every stream for the passes", "why_tests_cant": "All streams; leaving defaults in changes no meaning.", "anchors": ["hrdc/stream/optimizer/physical_merge.py:PhysicalMerge", "hrdc/stream/optimizer/designator_uniq.py:DesignatorUniq", "hrdc/stream/optimizer/global_merge.py:GlobalMerge", "doc/optimizations.rst"]}
{"id": "C82", "title": "Devices with reports of their own compile one after the other", "statement": "Without optimisation, two lists of members of a TopLevel whose values are in different reports, those of the second all after a Report, compile together exactly when each compiles, and the bytes are those of the first followed by those of the second: no state leaks from one device into another.", "quantifier": "every two lists of members that share no report, every registry", "why_tests_cant": "All pairs of trees; the Streamer keeps the current report and 768 counters from one device to the next.", "anchors": ["hrdc/descriptor/streamer.py:Streamer", "hrdc/descriptor/compiler.py:compile_main"]}
{"id": "C83", "title": "Which labels the decompiler reads", "statement": "Before each main item the decompiler reads the single usages (strings, designators) if there are any, and otherwise only the last minimum and the last maximum: dropping all other bounds from a stream changes neither the tree nor whether, and with which exception, it is rejected.", "quantifier": "every item stream, every registry", "why_tests_cant": "All streams, including repeated, unpaired and mixed bounds that no compiler emits.", "anchors": ["hrdc/descriptor/extractor.py:Extractor"]}
{"id": "C84", "title": "Numbers are parsed as plain ints", "statement": "In every item read from a blob or from a file in any format, the number of a logical or physical bound, unit exponent, report size, id, count, string or designator is a plain int, never a NamedConstant: the subtractions and ranges the decompiler and MainMerge compute cannot fail for lack of an operator.", "quantifier": "every blob, every file content, every registry", "why_tests_cant": "All inputs.", "anchors": ["hrdc/stream/parser/base.py:Parser.append", "hrdc/stream/item.py:Item.parse"]}
{"id": "C85", "title": "What an interrupted run has written", "statement": "When the compiler or the converter ends with an exception, the output holds whole items only. Without the optimiser it begins with everything compiled from the members before the failing one. For a tree with one collection around everything the output then declares nothing or leaves that collection open, optimised or not, so it never passes for a complete descriptor. The converter writes exactly the items of the longest well-formed beginning of its input, with -O a beginning of what that part alone would give. The hex and code formats hold the same bytes.", "quantifier": "every tree, blob and registry; with and without the optimiser; each format", "why_tests_cant": "Interrupted runs at every possible point cannot be enumerated.", "anchors": ["hrdc/descriptor/streamer.py:Streamer.element", "hrdc/descriptor/compiler.py:compile_main", "hrdc/converter.py:_main", "hrdc/stream/formatter/binary.py:Binary.append"]}
{"id": "C86", "title": "Units measure what their names say", "statement": "A system of units combined with exponents by | is the unit code that the HID specification (6.2.2.7) gives to the product of those base units, for every system and all exponents from -8 to 7; and every constant of Unit (Centimeter ... Volt) is a unit code of the dimension it is named after.", "quantifier": "every system, all exponents; every constant", "why_tests_cant": "16^6 combinations of exponents.", "anchors": ["hrdc/stream/item.py:_unit_nibble", "hrdc/stream/item.py:Unit"]}
{"id": "C87", "title": "Flags, collection types and ways are those of the HID specification", "statement": "Whatever flag words of Value a script joins with |, in any order, grouping and repetition, bit k of the result is set exactly when the word the HID specification (6.2.2.5) gives to 1 in bit k is among them, and nothing above bit 8 is; the types of Collection are numbered as in 6.2.2.6 and Input, Output and Feature are the tags of those items.", "quantifier": "every expression of flag words joined by |; every name of Collection", "why_tests_cant": "Unboundedly many expressions; a test fixes one combination at a time.", "anchors": ["hrdc/stream/item.py:DataItem", "hrdc/stream/item.py:Collection", "hrdc/descriptor/descriptor.py:Value", "hrdc/util/named_constant.py:NamedConstant"]}
{"id": "C88", "title": "Trees built by append and pop", "statement": "However a script calls append and pop on a TopLevel, Report or Collection, it ends up as if written out with the members left over, and fails exactly when it pops from an empty one; through any chain of indices t[i][j]... (negative ones included) append and pop change the last member of the node reached and nothing else in the tree.", "quantifier": "every tree, every sequence of calls, every chain of indices", "why_tests_cant": "Unboundedly many call sequences and trees.", "anchors": ["hrdc/descriptor/descriptor.py:Hierarchical"]}
{"id": "C89", "title": "Saying something again makes no difference to optimised output", "statement": "If one item is added to a stream or blob that only says again what is in force already (the last item of its class gave the same number, or there is none and the number is the default), the optimised output and the outcome of converter -O stay the same.", "quantifier": "every stream and blob, every place in it, every class of global item", "why_tests_cant": "Redundancy can be anywhere in unboundedly many streams; the passes hold items back and merge across it.", "anchors": ["hrdc/stream/optimizer/global_merge.py:GlobalMerge", "hrdc/stream/optimizer/main_merge.py:MainMerge", "hrdc/stream/optimizer/physical_merge.py:PhysicalMerge", "hrdc/converter.py:_main"]}
{"id": "C90", "title": "Shorthands compile like what they stand for", "statement": "A TopLevel inside a tree is its members; the members of a Report may as well follow it; the alignment of a Value is an Align before it; an Align is a Padding of fewer bits than its boundary; a Padding is a constant Value that is not aligned. Replacing one by the other anywhere in a tree, any number of times, compiles to the same bytes or raises the same exception, optimised or not.", "quantifier": "every tree, every place in it, every combination of the rules", "why_tests_cant": "Unboundedly many trees and places.", "anchors": ["hrdc/descriptor/streamer.py:Streamer.element", "hrdc/descriptor/streamer.py:Streamer.enter", "hrdc/descriptor/descriptor.py:Align", "hrdc/descriptor/descriptor.py:Padding", "hrdc/descriptor/descriptor.py:TopLevel"]}
{"id": "C91", "title": "The order of global items makes no difference to optimised output", "statement": "If global items that stand next to each other in a stream or blob change places, optimising still succeeds or fails alike; the optimised output has the same items in some order, the same number of bytes, and a host reads the same fields, usages and collections in it.", "quantifier": "every stream and blob, any number of trades anywhere in it", "why_tests_cant": "The passes hold global items back, compare them with what was said and merge main items across them; orders and streams are unboundedly many.", "anchors": ["hrdc/stream/optimizer/main_merge.py:MainMerge", "hrdc/stream/optimizer/global_merge.py:GlobalMerge", "hrdc/stream/optimizer/physical_merge.py:PhysicalMerge", "hrdc/stream/optimizer/range_merge.py:RangeMerge", "hrdc/converter.py:_main"]}
{"id": "C92", "title": "What the decompiler writes to standard output is the script", "statement": "When the decompiler succeeds and no output file is named, standard output holds the script and nothing else, so that it can be redirected to a file or piped to the interpreter; it rebuilds the decompiled tree.", "quantifier": "every byte string that the decompiler accepts, every registry", "why_tests_cant": "All descriptors; the Extractor may print before the script is written, depending on usages, logical ranges, report counts and enclosing collections.", "anchors": ["hrdc/descriptor/extractor.py:Extractor.handleDataItem", "hrdc/descriptor/extractor.py:main", "hrdc/usage/usage.py:UsageRange.from_array"]}
{"id": "C93", "title": "The decompiler depends only on what each main item says", "statement": "Two descriptors whose main items show the same decompile to the same tree up to the names of numbers (or raise the same exception), and so compile again to the same bytes. A collection shows its kind and first usage, its end nothing, constants their report and number of bits, data the global table, the usages with their page, strings, designators and flags. How this was said (order of items between main items, short or extended usages, single labels or ranges, Push, Pop and Delimiter, values overwritten before use) does not matter.", "quantifier": "every two readable byte strings whose items carry numbers of their class, every registry", "why_tests_cant": "All pairs of descriptors of any length; the Extractor keeps globals, locals and levels from item to item.", "anchors": ["hrdc/descriptor/extractor.py:Extractor._append", "hrdc/descriptor/extractor.py:Extractor.handleDataItem", "hrdc/descriptor/extractor.py:Extractor.usage"]}
{"id": "C94", "title": "Descriptors one after the other decompile to both trees", "statement": "If a descriptor closes what it opens, and the main items of another show the same after it as on their own (its globals are set again where they matter), then the two in a row decompile to the members of the first tree followed by those of the second (up to the names of numbers), where a Report that the first ends with goes on if the second begins with one of the same id. An exception of the second alone is raised for both, but for the AttributeError of a descriptor in which no collection is closed.", "quantifier": "every two readable byte strings whose items carry numbers of their class, every registry", "why_tests_cant": "All pairs of descriptors; the Extractor keeps globals, locals, levels and the root across the border.", "anchors": ["hrdc/descriptor/extractor.py:Extractor._append", "hrdc/descriptor/extractor.py:Extractor.reportInsert", "hrdc/descriptor/extractor.py:Extractor.ended"]}
{"id": "C95", "title": "Decompiling a compiled decompiled descriptor finds the same values", "statement": "If a byte string decompiles to a tree and the tree compiles, decompiling the unoptimised result gives back every value with data of that tree, with its attributes, report id and enclosing collections.", "quantifier": "every byte string, every three registries", "why_tests_cant": "Byte strings are of any length and items; each decompiled tree has to be compiled and decompiled again with other registries.", "anchors": ["hrdc/descriptor/extractor.py:main", "hrdc/descriptor/extractor.py:Extractor", "hrdc/descriptor/compiler.py:compile_main", "hrdc/descriptor/streamer.py:Streamer", "hrdc/descriptor/binary.py:Parser.parse"]}
{"id": "C96", "title": "Scripts are printed whole", "statement": "Printing a tree made of constructed values never raises an exception, so that the decompiler either fails before it writes anything of the script or writes all of it, from the imports to the call of compile_main.", "quantifier": "every tree, byte string, registry and indentation", "why_tests_cant": "The exceptions a printer can raise depend on the values of the tree.", "anchors": ["hrdc/descriptor/dumper.py:Dumper", "hrdc/descriptor/extractor.py:main", "hrdc/descriptor/descriptor.py:Value"]}
{"id": "C97", "title": "Report ids of compiled descriptors", "statement": "The ReportID items of a compiled descriptor carry the ids of the tree's Reports other than Report(0), in order, and each is from 1 to 255; the optimiser adds none.", "quantifier": "every tree and registry", "why_tests_cant": "Reports may be nested in any way in a tree of any size.", "anchors": ["hrdc/descriptor/streamer.py:Streamer", "hrdc/descriptor/descriptor.py:Report", "hrdc/descriptor/compiler.py:compile_main"]}
{"id": "C98", "title": "Reports are all numbered or none is", "statement": "In a compiled descriptor either every field a host reads is in a report with an id, or none is: HID does not allow a report without id beside one that has an id.", "quantifier": "every tree and registry, optimised or not", "why_tests_cant": "The report of a field depends on all that comes before it in the tree.", "anchors": ["hrdc/descriptor/streamer.py:Streamer", "hrdc/descriptor/descriptor.py:Report", "hrdc/descriptor/compiler.py:compile_main"]}
{"id": "C99", "title": "Reports do not influence each other", "statement": "Two trees with the same values in the Reports of some id compile to descriptors in which a host finds the same fields in that report, whatever values, Reports and collections come between them.", "quantifier": "every pair of trees and registries, every report id", "why_tests_cant": "Pairs of trees of any size.", "anchors": ["hrdc/descriptor/streamer.py:Streamer", "hrdc/descriptor/descriptor.py:Report", "hrdc/descriptor/compiler.py:compile_main"]}
{"id": "C100", "title": "Renumbering the Reports renumbers the fields", "statement": "Giving the Reports of a tree other ids, different ones for different ones, changes only the ids of the fields a host reads in the compiled descriptor; kinds, ids and sizes also when optimised; and the renumbered tree compiles if the new ids are from 0 to 255.", "quantifier": "every tree, registry and injective renumbering that keeps 0", "why_tests_cant": "All trees and all renumberings.", "anchors": ["hrdc/descriptor/streamer.py:Streamer", "hrdc/descriptor/descriptor.py:Report", "hrdc/descriptor/compiler.py:compile_main"]}
{"id": "C101", "title": "What follows does not change the bytes before", "statement": "When members are added at the end of a tree, of its last collection or Report and so on, the bytes of the descriptor so far stay the same, but for the ends of the collections that go on.", "quantifier": "every pair of such trees and registry", "why_tests_cant": "Additions at any depth of trees of any size.", "anchors": ["hrdc/descriptor/streamer.py:Streamer", "hrdc/descriptor/descriptor.py:Hierarchical", "hrdc/descriptor/compiler.py:compile_main"]}
{"id": "C102", "title": "The length of a report is that of its values", "statement": "In a compiled descriptor, optimised or not, the Input, Output or Feature report of some id has as many bits as the values of that kind in the Reports of that id have together, if none is aligned; with alignment at most the alignments less one are added.", "quantifier": "every tree, registry, kind and report id", "why_tests_cant": "Sums over trees of any size.", "anchors": ["hrdc/descriptor/streamer.py:Streamer", "hrdc/descriptor/descriptor.py:Value", "hrdc/descriptor/compiler.py:compile_main"]}
{"id": "C103", "title": "Collections do not change the fields", "statement": "Two trees with the same Reports and values from top to bottom compile to descriptors in which a host reads the same fields, whatever collections are around them; kinds, ids and sizes also when optimised.", "quantifier": "every pair of such trees and registries", "why_tests_cant": "Pairs of trees of any size and nesting.", "anchors": ["hrdc/descriptor/streamer.py:Streamer", "hrdc/descriptor/descriptor.py:Collection", "hrdc/descriptor/compiler.py:compile_main"]}
{"id": "C104", "title": "What follows a closed tree does not change its optimised bytes", "statement": "When a tree ends with a collection and members are added after it, not in it, the optimised bytes of the tree begin those of the longer one, and the tree compiles if the longer one does.", "quantifier": "every pair of such trees and registry", "why_tests_cant": "Additions of any size after trees of any size, through eight passes that hold items back.", "anchors": ["hrdc/stream/optimizer/main_merge.py:MainMerge", "hrdc/stream/optimizer/range_merge.py:RangeMerge", "hrdc/descriptor/streamer.py:Streamer", "hrdc/descriptor/compiler.py:compile_main"]}
