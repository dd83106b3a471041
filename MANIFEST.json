{
 "claims": [
  {
   "property": "C01",
   "status": "proved",
   "theorems": [
    "C01",
    "C01_eq_means"
   ],
   "note": ""
  },
  {
   "property": "C02",
   "status": "proved",
   "theorems": [
    "C02",
    "C02_log_robust"
   ],
   "note": "C02_log_robust covers the floating point logarithm used by the code."
  },
  {
   "property": "C03",
   "status": "proved",
   "theorems": [
    "C03"
   ],
   "note": ""
  },
  {
   "property": "C04",
   "status": "proved",
   "theorems": [
    "C04"
   ],
   "note": ""
  },
  {
   "property": "C05",
   "status": "proved",
   "theorems": [
    "C05"
   ],
   "note": ""
  },
  {
   "property": "C06",
   "status": "proved",
   "theorems": [
    "C06"
   ],
   "note": ""
  },
  {
   "property": "C07",
   "status": "proved",
   "theorems": [
    "C07",
    "C07_exhaustive"
   ],
   "note": ""
  },
  {
   "property": "C08",
   "status": "proved",
   "theorems": [
    "C08",
    "C08_total"
   ],
   "note": ""
  },
  {
   "property": "C09",
   "status": "partial",
   "theorems": [
    "C09_partial",
    "C09_always",
    "C09_refuted"
   ],
   "note": "False in general: a usage below 2^16 in four-byte form is rewritten in the short, page-relative form. Proved when no such usage occurs; C09_always: nothing else is changed, in any blob."
  },
  {
   "property": "C10",
   "status": "proved",
   "theorems": [
    "C10",
    "C10_items",
    "C10_tokens",
    "C10_words"
   ],
   "note": ""
  },
  {
   "property": "C11",
   "status": "proved",
   "theorems": [
    "C11",
    "C11_items",
    "C11_converter",
    "C11_registry"
   ],
   "note": "Names with a newline are excluded by hypothesis; Example C11_newline shows why."
  },
  {
   "property": "C12",
   "status": "proved",
   "theorems": [
    "C12",
    "C12_warns"
   ],
   "note": ""
  },
  {
   "property": "C13",
   "status": "proved",
   "theorems": [
    "C13"
   ],
   "note": ""
  },
  {
   "property": "C14",
   "status": "proved",
   "theorems": [
    "C14",
    "C14_reject"
   ],
   "note": ""
  },
  {
   "property": "C15",
   "status": "partial",
   "theorems": [
    "C15_partial",
    "C15_reject_partial",
    "C15_none",
    "C15_refuted"
   ],
   "note": "False for Collection given a negative int (Python negative indexing); proved for every other class and argument."
  },
  {
   "property": "C16",
   "status": "proved",
   "theorems": [
    "C16",
    "C16_inpage"
   ],
   "note": ""
  },
  {
   "property": "C17",
   "status": "proved",
   "theorems": [
    "C17_iter",
    "C17_len",
    "C17_getitem",
    "C17_from_array",
    "C17_back"
   ],
   "note": ""
  },
  {
   "property": "C18",
   "status": "partial",
   "theorems": [
    "C18_partial",
    "C18_refuted"
   ],
   "note": "False: indices are not checked and negative ones count from before the range. Proved for indices 0..len-1."
  },
  {
   "property": "C19",
   "status": "proved",
   "theorems": [
    "C19",
    "C19_unique",
    "C19_calls",
    "C19_arcade"
   ],
   "note": "The table is generated from /repo/hrdc/usage by tools/gen_usage.py."
  },
  {
   "property": "C20",
   "status": "partial",
   "theorems": [
    "C20_partial",
    "C20_calls",
    "C20_refuted"
   ],
   "note": "False for exactly four constants, listed in TableProofs.misnamed; proved for all others and for Button(n), Ordinal(n)."
  },
  {
   "property": "C21",
   "status": "partial",
   "theorems": [
    "C21_partial",
    "C21_refuted"
   ],
   "note": "False for exactly one constant, desktop.SystemDisplayRotationLockButton; proved for all others."
  },
  {
   "property": "C22",
   "status": "proved",
   "theorems": [
    "C22_reject",
    "C22_accept",
    "C22_common",
    "C22_physical",
    "C22_array",
    "C22_plain"
   ],
   "note": ""
  },
  {
   "property": "C23",
   "status": "proved",
   "theorems": [
    "C23_stream",
    "C23_optimised"
   ],
   "note": ""
  },
  {
   "property": "C24",
   "status": "proved",
   "theorems": [
    "C24"
   ],
   "note": "Report ids as in C25."
  },
  {
   "property": "C25",
   "status": "partial",
   "theorems": [
    "C25_partial",
    "C25_refuted"
   ],
   "note": "False: the report id of a Report stays in force after it. Proved when no value depends on leaving a Report. C76 says what happens in the other cases."
  },
  {
   "property": "C26",
   "status": "partial",
   "theorems": [
    "C26_partial",
    "C26_refuted"
   ],
   "note": "False only with a Report(0) after a Report with a non-zero id; proved otherwise. C76 says what happens then."
  },
  {
   "property": "C27",
   "status": "partial",
   "theorems": [
    "C27_partial",
    "C27_refuted"
   ],
   "note": "False: the streamer ignores count in its offsets. Proved when the extra repetitions are a multiple of every alignment in the tree. C76 says what happens in the other cases."
  },
  {
   "property": "C28",
   "status": "partial",
   "theorems": [
    "C28_partial",
    "C28_refuted"
   ],
   "note": "False when an inner Report hides the invalid id (see C25); proved for the id entered last, negative ids and missing usages."
  },
  {
   "property": "C29",
   "status": "partial",
   "theorems": [
    "C29_partial",
    "C29_refuted"
   ],
   "note": "False with a collection usage: the main item is flagged Variable. Proved without one."
  },
  {
   "property": "C30",
   "status": "proved",
   "theorems": [
    "C30"
   ],
   "note": ""
  },
  {
   "property": "C31",
   "status": "proved",
   "theorems": [
    "C31"
   ],
   "note": ""
  },
  {
   "property": "C32",
   "status": "proved",
   "theorems": [
    "C32",
    "C32_attributes"
   ],
   "note": "C32_attributes adds flags, logical range, unit and exponent."
  },
  {
   "property": "C33",
   "status": "proved",
   "theorems": [
    "C33"
   ],
   "note": ""
  },
  {
   "property": "C34",
   "status": "partial",
   "theorems": [
    "C34_partial",
    "C34_refuted",
    "C34_always"
   ],
   "note": "False: a Pop changes the table in force but not what the pass remembers. Proved when no item depends on it; for every stream what a host without Push and Pop reads is kept (C34_always)."
  },
  {
   "property": "C35",
   "status": "partial",
   "theorems": [
    "C35_partial",
    "C35_usages_partial",
    "C35_refuted"
   ],
   "note": "Proved for strings and designators on every stream. False for usages that mix pages, mix short and extended usages or are delimited; proved for the others."
  },
  {
   "property": "C36",
   "status": "partial",
   "theorems": [
    "C36_partial",
    "C36_refuted",
    "C36_always"
   ],
   "note": "Proved for every stream of 32-bit usages without Push and Pop. False with Pop, which restores the page unseen by the pass; what a host without Push and Pop reads is kept (C36_always)."
  },
  {
   "property": "C37",
   "status": "partial",
   "theorems": [
    "C37_partial",
    "C37_always",
    "C37_refuted"
   ],
   "note": "False in general: strings and designators move between fields, different arrays become one. Proved when the items joined are uniform; C37_always: the attributes of all fields and the order of all other items are kept in any case."
  },
  {
   "property": "C38",
   "status": "partial",
   "theorems": [
    "C38_partial",
    "C38_always",
    "C38_refuted"
   ],
   "note": "False, also for compiled trees: dropped bounds may have been needed to undo others. Proved for the streams where they are not; C38_always: everything but physical ranges is kept in every stream."
  },
  {
   "property": "C39",
   "status": "partial",
   "theorems": [
    "C39_partial",
    "C39_always",
    "C39_refuted"
   ],
   "note": "False when designators are separated by global items; proved when they are not or none is 0. C39_always: everything but designators 0 is kept in every stream."
  },
  {
   "property": "C40",
   "status": "partial",
   "theorems": [
    "C40_partial",
    "C40_same_partial",
    "C40_fields_partial",
    "C40_refuted"
   ],
   "note": "False when strings or physical ranges leak to the next value or the tree ends in a value; proved for closed trees of uniform values, usages of page 0 included. C40_fields_partial: apart from strings and designators, with no condition on these."
  },
  {
   "property": "C41",
   "status": "partial",
   "theorems": [
    "C41_partial",
    "C41_refuted",
    "C41_always",
    "C41_stack_partial",
    "C41_fields_partial"
   ],
   "note": "False for ordinary descriptors: short usages get a UsagePage 0; proved for regular push-free descriptors with extended usages. C41_always says exactly what is kept of the others: the output reads like the input without its UsagePage items; C41_stack_partial and C41_fields_partial the same with Push and Pop left out, or strings and designators."
  },
  {
   "property": "C42",
   "status": "partial",
   "theorems": [
    "C42_partial",
    "C42_fields_partial",
    "C42_refuted"
   ],
   "note": "False when values of different pages are joined; proved when those of neighbours are of one page. C42_fields_partial: apart from strings and designators, with no condition on these."
  },
  {
   "property": "C43",
   "status": "partial",
   "theorems": [
    "C43_partial",
    "C43_refuted",
    "C43_always"
   ],
   "note": "False for usages of page 0 and for those with both page and number over 255; proved for the others. C43_always, for every tree: at most two bytes more for each usage."
  },
  {
   "property": "C44",
   "status": "partial",
   "theorems": [
    "C44_partial",
    "C44_always",
    "C44_refuted"
   ],
   "note": "False for data after the last closed collection or in one never closed: it is lost without an error. Proved for streams that end by closing the last collection; C44_always bounds what is lost in every stream."
  },
  {
   "property": "C45",
   "status": "partial",
   "theorems": [
    "C45_partial",
    "C45_always",
    "C45_refuted"
   ],
   "note": "False when a unit or several usages belong to an array, or singles and ranges of usages are mixed. Proved for plain streams (ExtractSpec.plain_data), usages bound to the page at the main item; C45_always drops the conditions on Push, Pop and the end of the stream."
  },
  {
   "property": "C46",
   "status": "partial",
   "theorems": [
    "C46_partial",
    "C46_stack",
    "C46_always",
    "C46_refuted"
   ],
   "note": "False with Pop, which the extractor ignores. Proved for push-free streams that end by closing the last collection; C46_stack and C46_always say what happens in all others."
  },
  {
   "property": "C47",
   "status": "partial",
   "theorems": [
    "C47_partial",
    "C47_always",
    "C47_refuted"
   ],
   "note": "False: empty collections are dropped. Proved for plain streams up to exactly that; C47_always as for C45."
  },
  {
   "property": "C48",
   "status": "partial",
   "theorems": [
    "C48_partial",
    "C48_refuted",
    "C48_rejected"
   ],
   "note": "False: values are moved to multiples of their sizes, id 0 is ignored after another id, collections without usage do not compile. Proved for plain, naturally aligned streams whose buffers of bytes leave every other value where it may start (buffers_fit) and whose tree compiles."
  },
  {
   "property": "C49",
   "status": "partial",
   "theorems": [
    "C49_partial",
    "C49_refuted"
   ],
   "note": "False: repetitions (other than of bytes), units of arrays, arrays with a usage of another type and values after the last collection are lost, arrays outside collections are rejected. Proved for the trees where none occurs."
  },
  {
   "property": "C50",
   "status": "partial",
   "theorems": [
    "C50_partial",
    "C50_refuted"
   ],
   "note": "Proved for whole scripts: the text printed for any decompiled blob, read by an independent reader of Python expressions, evaluates to the same tree. False for usage 0, four misprinted constants, flags above 0x100, unit 0xf011 and collection types from 7; excluded by dumpable."
  },
  {
   "property": "C51",
   "status": "proved",
   "theorems": [
    "C51",
    "C51_negative_kind"
   ],
   "note": "C51_negative_kind shows that the condition on collection types is needed."
  },
  {
   "property": "C52",
   "status": "partial",
   "theorems": [
    "C52_partial",
    "C52_refuted"
   ],
   "note": "Proved for dumpable trees, see C50; false for the others listed there."
  },
  {
   "property": "C53",
   "status": "partial",
   "theorems": [
    "C53_partial",
    "C53_refuted"
   ],
   "note": "Proved for the unoptimised output under the conditions of C48 and C50; C48_refuted and C50_refuted show what fails without them."
  },
  {
   "property": "C54",
   "status": "partial",
   "theorems": [
    "C54_partial",
    "C54_exactly",
    "C54_accepted",
    "C54_refuted"
   ],
   "note": "False: four kinds of valid streams raise four different exceptions. Proved for the streams where no data item may be taken for a named array (AcceptSpec.clear_stream). C54_exactly: which of all item sequences are rejected and with which exception (VerdictSpec.verdict); C54_accepted: which byte strings are accepted."
  },
  {
   "property": "C55",
   "status": "proved",
   "theorems": [
    "C55"
   ],
   "note": "The conditions exclude alignments over 2^32 and negative collection types, which count from the end of a list (C51_negative_kind)."
  },
  {
   "property": "C56",
   "status": "partial",
   "theorems": [
    "C56_partial",
    "C56_refuted",
    "C56_split_usage"
   ],
   "note": "False when joined counts exceed 32 bits; proved when each count leaves room for twice the number of values. The converse is false (C56_split_usage)."
  },
  {
   "property": "C57",
   "status": "partial",
   "theorems": [
    "C57_partial",
    "C57_exactly",
    "C57_refuted"
   ],
   "note": "False for collections without usage, report ids over 255, padding over 32 bits and pages over 16 bits (C57_refuted); proved, with Push and Pop and unfinished collections included, for all others. C57_exactly: of all byte strings the decompiler accepts, exactly which trees compile."
  },
  {
   "property": "C58",
   "status": "partial",
   "theorems": [
    "C58_partial",
    "C58_script_partial",
    "C58_refuted"
   ],
   "note": "Proved for tidy descriptors (AcceptSpec.tidy): the conditions of C48, C54 and C57. The optimised output additionally needs the conditions of C40 and C42 on the tree, the script those of C50."
  },
  {
   "property": "C59",
   "status": "proved",
   "theorems": [
    "C59",
    "C59_registry",
    "C59_formats"
   ],
   "note": "Names with a carriage return are excluded by hypothesis; Example C59_cr shows why."
  },
  {
   "property": "C60",
   "status": "proved",
   "theorems": [
    "C60"
   ],
   "note": "Names as in C59."
  },
  {
   "property": "C61",
   "status": "proved",
   "theorems": [
    "C61",
    "C61_output"
   ],
   "note": ""
  },
  {
   "property": "C62",
   "status": "partial",
   "theorems": [
    "C62_partial",
    "C62_binary",
    "C62_refuted"
   ],
   "note": "False: the binary format never works with a named file, since files are opened in text mode (C62_binary). Proved for the text formats."
  },
  {
   "property": "C63",
   "status": "proved",
   "theorems": [
    "C63",
    "C63_types"
   ],
   "note": "C63_types shows that the types have to agree."
  },
  {
   "property": "C64",
   "status": "partial",
   "theorems": [
    "C64_partial",
    "C64_refuted"
   ],
   "note": "False for the trees of C49 and for arrays whose usage is not a NamedArray in the decompiler's registry. Proved for the trees where none occurs; unoptimised bytes."
  },
  {
   "property": "C65",
   "status": "partial",
   "theorems": [
    "C65_partial",
    "C65_refuted"
   ],
   "note": "False for joined buffers of bytes, joined arrays and arrays with a unit. Proved for the trees of C42 whose joined values are variables with a usage each and whose values the decompiler can express."
  },
  {
   "property": "C66",
   "status": "partial",
   "theorems": [
    "C66_partial",
    "C66_main_partial",
    "C66_refuted"
   ],
   "note": "Proved on every stream for six of the eight passes, and for MainMerge on streams without counts of 0 that end by closing a collection. False for UsagePage, hence for the whole optimiser: short usages are taken for usages of page 0."
  },
  {
   "property": "C67",
   "status": "proved",
   "theorems": [
    "C67",
    "C67_equivalence"
   ],
   "note": ""
  },
  {
   "property": "C68",
   "status": "partial",
   "theorems": [
    "C68_always",
    "C68_partial",
    "C68_refuted"
   ],
   "note": "False between classes: < is neither asymmetric nor transitive there. Proved irreflexive and total everywhere, a strict order within a class."
  },
  {
   "property": "C69",
   "status": "partial",
   "theorems": [
    "C69_partial",
    "C69_flags",
    "C69_compare",
    "C69_exactly",
    "C69_compare_exactly",
    "C69_refuted"
   ],
   "note": "Proved for every expression that evaluates, in particular those of |, & and ~. False otherwise: C69_exactly and C69_compare_exactly say which operations raise TypeError."
  },
  {
   "property": "C70",
   "status": "proved",
   "theorems": [
    "C70"
   ],
   "note": "The statement is about four given trees; registries, hosts and readings are arbitrary."
  },
  {
   "property": "C71",
   "status": "partial",
   "theorems": [
    "C71_partial",
    "C71_refuted"
   ],
   "note": "False for decimal constants, // inside a block comment and comments that follow a block comment directly; bytes can be lost without an error. Proved for all other initialisers (hexadecimal constants, white space, comments of both kinds)."
  },
  {
   "property": "C72",
   "status": "partial",
   "theorems": [
    "C72_partial",
    "C72_refuted"
   ],
   "note": "False: the hex parser drops what is not two digits, the code parser ignores blanks inside numbers. Proved for the code parser: foreign characters are rejected and every part between commas gives one byte."
  },
  {
   "property": "C73",
   "status": "partial",
   "theorems": [
    "C73_partial",
    "C73_always",
    "C73_refuted",
    "C73_apart_partial",
    "C73_apart_refuted"
   ],
   "note": "False after a Pop, which the parser does not follow: usages are then named in the wrong page. Proved without Pop; C73_always says which page is used otherwise. Flags above 0x1ff have no name, so such comments are not unique; proved for all other items."
  },
  {
   "property": "C74",
   "status": "partial",
   "theorems": [
    "C74_partial",
    "C74_always",
    "C74_single",
    "C74_named_partial",
    "C74_refuted",
    "C74_arcade_always",
    "C74_arcade_refuted",
    "C74_counted"
   ],
   "note": "False of desktop.SystemDisplayRotationLockButton (page 0x10) and of all of arcade (page 0xff00 for 0x91); proved for every other constant, except that nothing is claimed of the nine player usages of led. IndicatorGreen and GenericIndicator of the LED page have no constant."
  },
  {
   "property": "C75",
   "status": "proved",
   "theorems": [
    "C75",
    "C75_total",
    "C75_single",
    "C75_converter"
   ],
   "note": ""
  },
  {
   "property": "C76",
   "status": "proved",
   "theorems": [
    "C76",
    "C76_places",
    "C76_optimised_partial"
   ],
   "note": "C76_optimised_partial has the conditions of C40, without which C40 is false."
  },
  {
   "property": "C77",
   "status": "partial",
   "theorems": [
    "C77",
    "C77_blob_partial",
    "C77_refuted"
   ],
   "note": "Proved for the compiler. False for blobs with UsagePage items after usages that have their page; proved for the other global items, and for blobs without UsagePage."
  },
  {
   "property": "C78",
   "status": "partial",
   "theorems": [
    "C78_partial",
    "C78_refuted"
   ],
   "note": "Proved for trees whose named arrays are not empty and given without bounds other than logicalMin, whose Align values have the default flags and whose usages print as themselves (dumpable); C78_refuted has trees that do not come back for each of the first three conditions."
  },
  {
   "property": "C79",
   "status": "partial",
   "theorems": [
    "C79_partial",
    "C79_blob_partial",
    "C79_refuted"
   ],
   "note": "Proved for trees and blobs that end by opening or closing a collection; C79_refuted: three buttons in a report without a collection stay three main items."
  },
  {
   "property": "C80",
   "status": "partial",
   "theorems": [
    "C80_partial",
    "C80_blob_partial",
    "C80_refuted"
   ],
   "note": "Proved for runs from 1 on, in every well-formed tree and every blob without UsagePage items; C80_refuted: the strings 0, 1, 2 stay single."
  },
  {
   "property": "C81",
   "status": "proved",
   "theorems": [
    "C81",
    "C81_blob",
    "C81_passes"
   ],
   "note": "Whole optimiser on trees and blobs; the two passes on every stream."
  },
  {
   "property": "C82",
   "status": "proved",
   "theorems": [
    "C82",
    "C82_conditions"
   ],
   "note": "C82_conditions shows that neither condition can be left out."
  },
  {
   "property": "C83",
   "status": "proved",
   "theorems": [
    "C83"
   ],
   "note": "No condition on the stream."
  },
  {
   "property": "C84",
   "status": "proved",
   "theorems": [
    "C84"
   ],
   "note": ""
  },
  {
   "property": "C85",
   "status": "proved",
   "theorems": [
    "C85_agrees",
    "C85_whole",
    "C85_members",
    "C85_open",
    "C85_formats",
    "C85_converter",
    "C85_converter_optimised"
   ],
   "note": "The code format keeps the bytes if no name contains a newline (as in C11)."
  },
  {
   "property": "C86",
   "status": "partial",
   "theorems": [
    "C86_composed",
    "C86_partial",
    "C86_refuted"
   ],
   "note": "False for Second, Ampere and Candela: they have system 0, which is no unit. Proved for all compositions and the 14 other constants; the three are right when combined with SILinear."
  },
  {
   "property": "C87",
   "status": "proved",
   "theorems": [
    "C87_flags",
    "C87_words",
    "C87_meaning",
    "C87_collections",
    "C87_ways",
    "C87_units"
   ],
   "note": "The constants as the expression evaluator of scripts finds them (PyExpr.v)."
  },
  {
   "property": "C88",
   "status": "proved",
   "theorems": [
    "C88_history",
    "C88_unique",
    "C88_append",
    "C88_pop",
    "C88_defined",
    "C88_getitem",
    "C88_len"
   ],
   "note": "For trees without sharing: an object that is a member twice is two trees in the model."
  },
  {
   "property": "C89",
   "status": "partial",
   "theorems": [
    "C89_partial",
    "C89_blob_partial",
    "C89_refuted",
    "C89_physical_refuted",
    "C89_count_refuted",
    "C89_local_refuted"
   ],
   "note": "Proved for pages, sizes, report IDs, units and exponents anywhere between the locals of two main items, for counts followed by a main item and later a collection or its end, for logical bounds where no physical ones are given. False for the rest; Push and Pop are not such items."
  },
  {
   "property": "C90",
   "status": "proved",
   "theorems": [
    "C90",
    "C90_align",
    "C90_padding_refuted"
   ],
   "note": "C90_padding_refuted: doc/descriptor.rst calls Padding a short-hand for a constant Value; with the default alignment that Value may be moved."
  },
  {
   "property": "C91",
   "status": "partial",
   "theorems": [
    "C91_partial",
    "C91_blob_partial",
    "C91_count_refuted",
    "C91_local_refuted"
   ],
   "note": "Proved for neighbours of different classes other than Push and Pop, a ReportCount being followed by a main item and later a collection or its end. False for a last ReportCount and for trades of a global and a local item."
  },
  {
   "property": "C92",
   "status": "partial",
   "theorems": [
    "C92_exactly",
    "C92_partial",
    "C92_only",
    "C92_file",
    "C92_refuted"
   ],
   "note": "False: for an array with a usage per value whose usages are fewer than two or not in a row, extractor.py:214 prints a remark first, and standard output is no script. C92_exactly gives the remarks for every accepted descriptor; without any the script rebuilds the tree. With a named file the file is right."
  },
  {
   "property": "C93",
   "status": "proved",
   "theorems": [
    "C93",
    "C93_compiled",
    "C93_order"
   ],
   "note": "views is a fold over the class and number of the items in the bytes; C93_order is the special case of reordering, Push, Pop, Delimiter and overwriting."
  },
  {
   "property": "C94",
   "status": "proved",
   "theorems": [
    "C94",
    "C94_error",
    "C94_compiled"
   ],
   "note": "joined (FollowSpec.v) says how the members of both trees are put together; views as in C93. C94_compiled joins it with C82."
  },
  {
   "property": "C95",
   "status": "partial",
   "theorems": [
    "C95_partial",
    "C95_script_partial",
    "C95_refuted"
   ],
   "note": "False: report 0 after another report, values after the last collection, arrays whose collection is not a NamedArray by its usage, fields of one value per usage. Proved for every byte string whose tree has none (found_again, TwiceSpec.v); unoptimised bytes. C95_script_partial: the same through the printed script."
  },
  {
   "property": "C96",
   "status": "proved",
   "theorems": [
    "C96_total",
    "C96_blob",
    "C96_script"
   ],
   "note": "Trees are those of constructors (well_formed); attributes assigned later are not modelled."
  },
  {
   "property": "C97",
   "status": "partial",
   "theorems": [
    "C97_ids",
    "C97_optimised",
    "C97_limit_partial",
    "C97_refuted"
   ],
   "note": "The ids are those of the Reports and at least 1, for every tree; at most 255 when each Report begins with values (C97_limit_partial), false otherwise (C97_refuted): an empty Report may have any larger id, and a value after it is then read in that report."
  },
  {
   "property": "C98",
   "status": "partial",
   "theorems": [
    "C98_numbered_partial",
    "C98_unnumbered_partial",
    "C98_refuted"
   ],
   "note": "Proved when a numbered Report begins before the first value, or no Report is numbered (optimised: and the tree ends in a collection); false when values come before the first numbered Report (C98_refuted)."
  },
  {
   "property": "C99",
   "status": "partial",
   "theorems": [
    "C99_partial",
    "C99_kinds_partial",
    "C99_places_partial",
    "C99_refuted"
   ],
   "note": "All attributes of the fields, also of Inputs, Outputs and Features of one id by themselves, for trees without Report(0); optimised: kinds, ids and sizes, for trees that end in a collection; false with Report(0), whose fields are read in the report before it (C99_refuted)."
  },
  {
   "property": "C100",
   "status": "proved",
   "theorems": [
    "C100_fields",
    "C100_places",
    "C100_compiles"
   ],
   "note": "Trees are those of constructors (well_formed); optimised ones end in a collection; C100_compiles is for collection types that are not negative and alignments up to 2^32, as C55."
  },
  {
   "property": "C101",
   "status": "partial",
   "theorems": [
    "C101_partial",
    "C101_refuted"
   ],
   "note": "Proved without optimisation, for every tree; false with it (C101_refuted): a field may be joined with the next one; C104 has optimised trees that end with a collection."
  },
  {
   "property": "C102",
   "status": "proved",
   "theorems": [
    "C102_length",
    "C102_bounds"
   ],
   "note": "Trees are those of constructors (well_formed); optimised ones end in a collection; a value counts for the last numbered Report before it, see C25."
  },
  {
   "property": "C103",
   "status": "proved",
   "theorems": [
    "C103_fields",
    "C103_places"
   ],
   "note": "Trees are those of constructors (well_formed); optimised ones end in a collection."
  },
  {
   "property": "C104",
   "status": "proved",
   "theorems": [
    "C104",
    "C104_condition"
   ],
   "note": "The tree ends with a collection (closed_tree); C104_condition shows that this is needed."
  }
 ]
}