#!/usr/bin/env python3
"""Writes MANIFEST.json from the table below."""
import json, os, re

CLAIMS = [
 ("C01", "proved", ["C01", "C01_eq_means"], ""),
 ("C02", "proved", ["C02", "C02_log_robust"], "C02_log_robust covers the floating point logarithm used by the code."),
 ("C03", "proved", ["C03"], ""),
 ("C04", "proved", ["C04"], ""),
 ("C05", "proved", ["C05"], ""),
 ("C06", "proved", ["C06"], ""),
 ("C07", "proved", ["C07", "C07_exhaustive"], ""),
 ("C08", "proved", ["C08", "C08_total"], ""),
 ("C09", "partial", ["C09_partial", "C09_always", "C09_refuted"], "False in general: a usage below 2^16 in four-byte form is rewritten in the short, page-relative form. Proved when no such usage occurs; C09_always: nothing else is changed, in any blob."),
 ("C10", "proved", ["C10", "C10_items", "C10_tokens", "C10_words"], ""),
 ("C11", "proved", ["C11", "C11_items", "C11_converter", "C11_registry"], "Names with a newline are excluded by hypothesis; Example C11_newline shows why."),
 ("C12", "proved", ["C12", "C12_warns"], ""),
 ("C13", "proved", ["C13"], ""),
 ("C14", "proved", ["C14", "C14_reject"], ""),
 ("C15", "partial", ["C15_partial", "C15_reject_partial", "C15_none", "C15_refuted"], "False for Collection given a negative int (Python negative indexing); proved for every other class and argument."),
 ("C16", "proved", ["C16", "C16_inpage"], ""),
 ("C17", "proved", ["C17_iter", "C17_len", "C17_getitem", "C17_from_array", "C17_back"], ""),
 ("C18", "partial", ["C18_partial", "C18_refuted"], "False: indices are not checked and negative ones count from before the range. Proved for indices 0..len-1."),
 ("C19", "proved", ["C19", "C19_unique", "C19_calls", "C19_arcade"], "The table is generated from /repo/hrdc/usage by tools/gen_usage.py."),
 ("C20", "partial", ["C20_partial", "C20_calls", "C20_refuted"], "False for exactly four constants, listed in TableProofs.misnamed; proved for all others and for Button(n), Ordinal(n)."),
 ("C21", "partial", ["C21_partial", "C21_refuted"], "False for exactly one constant, desktop.SystemDisplayRotationLockButton; proved for all others."),
 ("C22", "proved", ["C22_reject", "C22_accept", "C22_common", "C22_physical", "C22_array", "C22_plain"], ""),
 ("C23", "proved", ["C23_stream", "C23_optimised"], ""),
 ("C24", "proved", ["C24"], "Report ids as in C25."),
 ("C25", "partial", ["C25_partial", "C25_refuted"], "False: the report id of a Report stays in force after it. Proved when no value depends on leaving a Report. C76 says what happens in the other cases."),
 ("C26", "partial", ["C26_partial", "C26_refuted"], "False only with a Report(0) after a Report with a non-zero id; proved otherwise. C76 says what happens then."),
 ("C27", "partial", ["C27_partial", "C27_refuted"], "False: the streamer ignores count in its offsets. Proved when the extra repetitions are a multiple of every alignment in the tree. C76 says what happens in the other cases."),
 ("C28", "partial", ["C28_partial", "C28_refuted"], "False when an inner Report hides the invalid id (see C25); proved for the id entered last, negative ids and missing usages."),
 ("C29", "partial", ["C29_partial", "C29_refuted"], "False with a collection usage: the main item is flagged Variable. Proved without one."),
 ("C30", "proved", ["C30"], ""),
 ("C31", "proved", ["C31"], ""),
 ("C32", "proved", ["C32", "C32_attributes"], "C32_attributes adds flags, logical range, unit and exponent."),
 ("C33", "proved", ["C33"], ""),
 ("C34", "partial", ["C34_partial", "C34_refuted", "C34_always"], "False: a Pop changes the table in force but not what the pass remembers. Proved when no item depends on it; for every stream what a host without Push and Pop reads is kept (C34_always)."),
 ("C35", "partial", ["C35_partial", "C35_usages_partial", "C35_refuted"], "Proved for strings and designators on every stream. False for usages that mix pages, mix short and extended usages or are delimited; proved for the others."),
 ("C36", "partial", ["C36_partial", "C36_refuted", "C36_always"], "Proved for every stream of 32-bit usages without Push and Pop. False with Pop, which restores the page unseen by the pass; what a host without Push and Pop reads is kept (C36_always)."),
 ("C37", "partial", ["C37_partial", "C37_always", "C37_refuted"], "False in general: strings and designators move between fields, different arrays become one. Proved when the items joined are uniform; C37_always: the attributes of all fields and the order of all other items are kept in any case."),
 ("C38", "partial", ["C38_partial", "C38_always", "C38_refuted"], "False, also for compiled trees: dropped bounds may have been needed to undo others. Proved for the streams where they are not; C38_always: everything but physical ranges is kept in every stream."),
 ("C39", "partial", ["C39_partial", "C39_always", "C39_refuted"], "False when designators are separated by global items; proved when they are not or none is 0. C39_always: everything but designators 0 is kept in every stream."),
 ("C40", "partial", ["C40_partial", "C40_same_partial", "C40_fields_partial", "C40_refuted"], "False when strings or physical ranges leak to the next value or the tree ends in a value; proved for closed trees of uniform values, usages of page 0 included. C40_fields_partial: apart from strings and designators, with no condition on these."),
 ("C41", "partial", ["C41_partial", "C41_refuted", "C41_always", "C41_stack_partial", "C41_fields_partial"], "False for ordinary descriptors: short usages get a UsagePage 0; proved for regular push-free descriptors with extended usages. C41_always says exactly what is kept of the others: the output reads like the input without its UsagePage items; C41_stack_partial and C41_fields_partial the same with Push and Pop left out, or strings and designators."),
 ("C42", "partial", ["C42_partial", "C42_fields_partial", "C42_refuted"], "False when values of different pages are joined; proved when those of neighbours are of one page. C42_fields_partial: apart from strings and designators, with no condition on these."),
 ("C43", "partial", ["C43_partial", "C43_refuted", "C43_always"], "False for usages of page 0 and for those with both page and number over 255; proved for the others. C43_always, for every tree: at most two bytes more for each usage."),
 ("C44", "partial", ["C44_partial", "C44_always", "C44_refuted"], "False for data after the last closed collection or in one never closed: it is lost without an error. Proved for streams that end by closing the last collection; C44_always bounds what is lost in every stream."),
 ("C45", "partial", ["C45_partial", "C45_always", "C45_refuted"], "False when a unit or several usages belong to an array, or singles and ranges of usages are mixed. Proved for plain streams (ExtractSpec.plain_data), usages bound to the page at the main item; C45_always drops the conditions on Push, Pop and the end of the stream."),
 ("C46", "partial", ["C46_partial", "C46_stack", "C46_always", "C46_refuted"], "False with Pop, which the extractor ignores. Proved for push-free streams that end by closing the last collection; C46_stack and C46_always say what happens in all others."),
 ("C47", "partial", ["C47_partial", "C47_always", "C47_refuted"], "False: empty collections are dropped. Proved for plain streams up to exactly that; C47_always as for C45."),
 ("C48", "partial", ["C48_partial", "C48_refuted", "C48_rejected"], "False: values are moved to multiples of their sizes, id 0 is ignored after another id, collections without usage do not compile. Proved for plain, naturally aligned streams whose buffers of bytes leave every other value where it may start (buffers_fit) and whose tree compiles."),
 ("C49", "partial", ["C49_partial", "C49_refuted"], "False: repetitions (other than of bytes), units of arrays, arrays with a usage of another type and values after the last collection are lost, arrays outside collections are rejected. Proved for the trees where none occurs."),
 ("C50", "partial", ["C50_partial", "C50_refuted"], "Proved for whole scripts: the text printed for any decompiled blob, read by an independent reader of Python expressions, evaluates to the same tree. False for usage 0, four misprinted constants, flags above 0x100, unit 0xf011 and collection types from 7; excluded by dumpable."),
 ("C51", "proved", ["C51", "C51_negative_kind"], "C51_negative_kind shows that the condition on collection types is needed."),
 ("C52", "partial", ["C52_partial", "C52_refuted"], "Proved for dumpable trees, see C50; false for the others listed there."),
 ("C53", "partial", ["C53_partial", "C53_refuted"], "Proved for the unoptimised output under the conditions of C48 and C50; C48_refuted and C50_refuted show what fails without them."),
 ("C54", "partial", ["C54_partial", "C54_exactly", "C54_accepted", "C54_refuted"], "False: four kinds of valid streams raise four different exceptions. Proved for the streams where no data item may be taken for a named array (AcceptSpec.clear_stream). C54_exactly: which of all item sequences are rejected and with which exception (VerdictSpec.verdict); C54_accepted: which byte strings are accepted."),
 ("C55", "proved", ["C55"], "The conditions exclude alignments over 2^32 and negative collection types, which count from the end of a list (C51_negative_kind)."),
 ("C56", "partial", ["C56_partial", "C56_refuted", "C56_split_usage"], "False when joined counts exceed 32 bits; proved when each count leaves room for twice the number of values. The converse is false (C56_split_usage)."),
 ("C57", "partial", ["C57_partial", "C57_exactly", "C57_refuted"], "False for collections without usage, report ids over 255, padding over 32 bits and pages over 16 bits (C57_refuted); proved, with Push and Pop and unfinished collections included, for all others. C57_exactly: of all byte strings the decompiler accepts, exactly which trees compile."),
 ("C58", "partial", ["C58_partial", "C58_script_partial", "C58_refuted"], "Proved for tidy descriptors (AcceptSpec.tidy): the conditions of C48, C54 and C57. The optimised output additionally needs the conditions of C40 and C42 on the tree, the script those of C50."),
 ("C59", "proved", ["C59", "C59_registry", "C59_formats"], "Names with a carriage return are excluded by hypothesis; Example C59_cr shows why."),
 ("C60", "proved", ["C60"], "Names as in C59."),
 ("C61", "proved", ["C61", "C61_output"], ""),
 ("C62", "partial", ["C62_partial", "C62_binary", "C62_refuted"], "False: the binary format never works with a named file, since files are opened in text mode (C62_binary). Proved for the text formats."),
 ("C63", "proved", ["C63", "C63_types"], "C63_types shows that the types have to agree."),
 ("C64", "partial", ["C64_partial", "C64_refuted"], "False for the trees of C49 and for arrays whose usage is not a NamedArray in the decompiler's registry. Proved for the trees where none occurs; unoptimised bytes."),
 ("C65", "partial", ["C65_partial", "C65_refuted"], "False for joined buffers of bytes, joined arrays and arrays with a unit. Proved for the trees of C42 whose joined values are variables with a usage each and whose values the decompiler can express."),
 ("C66", "partial", ["C66_partial", "C66_main_partial", "C66_refuted"], "Proved on every stream for six of the eight passes, and for MainMerge on streams without counts of 0 that end by closing a collection. False for UsagePage, hence for the whole optimiser: short usages are taken for usages of page 0."),
 ("C67", "proved", ["C67", "C67_equivalence"], ""),
 ("C68", "partial", ["C68_always", "C68_partial", "C68_refuted"], "False between classes: < is neither asymmetric nor transitive there. Proved irreflexive and total everywhere, a strict order within a class."),
 ("C69", "partial", ["C69_partial", "C69_flags", "C69_compare", "C69_exactly", "C69_compare_exactly", "C69_refuted"], "Proved for every expression that evaluates, in particular those of |, & and ~. False otherwise: C69_exactly and C69_compare_exactly say which operations raise TypeError."),
 ("C70", "proved", ["C70"], "The statement is about four given trees; registries, hosts and readings are arbitrary."),
 ("C71", "partial", ["C71_partial", "C71_refuted"], "False for decimal constants, // inside a block comment and comments that follow a block comment directly; bytes can be lost without an error. Proved for all other initialisers (hexadecimal constants, white space, comments of both kinds)."),
 ("C72", "partial", ["C72_partial", "C72_refuted"], "False: the hex parser drops what is not two digits, the code parser ignores blanks inside numbers. Proved for the code parser: foreign characters are rejected and every part between commas gives one byte."),
 ("C73", "partial", ["C73_partial", "C73_always", "C73_refuted", "C73_apart_partial", "C73_apart_refuted"], "False after a Pop, which the parser does not follow: usages are then named in the wrong page. Proved without Pop; C73_always says which page is used otherwise. Flags above 0x1ff have no name, so such comments are not unique; proved for all other items."),
 ("C74", "partial", ["C74_partial", "C74_always", "C74_single", "C74_named_partial", "C74_refuted", "C74_arcade_always", "C74_arcade_refuted", "C74_counted"], "False of desktop.SystemDisplayRotationLockButton (page 0x10) and of all of arcade (page 0xff00 for 0x91); proved for every other constant, except that nothing is claimed of the nine player usages of led. IndicatorGreen and GenericIndicator of the LED page have no constant."),
 ("C75", "proved", ["C75", "C75_total", "C75_single", "C75_converter"], ""),
 ("C76", "proved", ["C76", "C76_places", "C76_optimised_partial"], "C76_optimised_partial has the conditions of C40, without which C40 is false."),
 ("C77", "partial", ["C77", "C77_blob_partial", "C77_refuted"], "Proved for the compiler. False for blobs with UsagePage items after usages that have their page; proved for the other global items, and for blobs without UsagePage."),
 ("C78", "partial", ["C78_partial", "C78_refuted"], "Proved for trees whose named arrays are not empty and given without bounds other than logicalMin, whose Align values have the default flags and whose usages print as themselves (dumpable); C78_refuted has trees that do not come back for each of the first three conditions."),
 ("C79", "partial", ["C79_partial", "C79_blob_partial", "C79_refuted"], "Proved for trees and blobs that end by opening or closing a collection; C79_refuted: three buttons in a report without a collection stay three main items."),
 ("C80", "partial", ["C80_partial", "C80_blob_partial", "C80_refuted"], "Proved for runs from 1 on, in every well-formed tree and every blob without UsagePage items; C80_refuted: the strings 0, 1, 2 stay single."),
 ("C81", "proved", ["C81", "C81_blob", "C81_passes"], "Whole optimiser on trees and blobs; the two passes on every stream."),
 ("C82", "proved", ["C82", "C82_conditions"], "C82_conditions shows that neither condition can be left out."),
 ("C83", "proved", ["C83"], "No condition on the stream."),
 ("C84", "proved", ["C84"], ""),
 ("C85", "proved", ["C85_agrees", "C85_whole", "C85_members", "C85_open", "C85_formats", "C85_converter", "C85_converter_optimised"],
  "The code format keeps the bytes if no name contains a newline (as in C11)."),
 ("C86", "partial", ["C86_composed", "C86_partial", "C86_refuted"],
  "False for Second, Ampere and Candela: they have system 0, which is no unit. Proved for all compositions and the 14 other constants; the three are right when combined with SILinear."),
 ("C87", "proved", ["C87_flags", "C87_words", "C87_meaning", "C87_collections", "C87_ways", "C87_units"],
  "The constants as the expression evaluator of scripts finds them (PyExpr.v)."),
 ("C88", "proved", ["C88_history", "C88_unique", "C88_append", "C88_pop", "C88_defined", "C88_getitem", "C88_len"],
  "For trees without sharing: an object that is a member twice is two trees in the model."),
 ("C89", "partial", ["C89_partial", "C89_blob_partial", "C89_refuted", "C89_physical_refuted", "C89_count_refuted", "C89_local_refuted"],
  "Proved for pages, sizes, report IDs, units and exponents anywhere between the locals of two main items, for counts followed by a main item and later a collection or its end, for logical bounds where no physical ones are given. False for the rest; Push and Pop are not such items."),
 ("C90", "proved", ["C90", "C90_align", "C90_padding_refuted"],
  "C90_padding_refuted: doc/descriptor.rst calls Padding a short-hand for a constant Value; with the default alignment that Value may be moved."),
 ("C91", "partial", ["C91_partial", "C91_blob_partial", "C91_count_refuted", "C91_local_refuted"],
  "Proved for neighbours of different classes other than Push and Pop, a ReportCount being followed by a main item and later a collection or its end. False for a last ReportCount and for trades of a global and a local item."),
 ("C92", "partial", ["C92_exactly", "C92_partial", "C92_only", "C92_file", "C92_refuted"],
  "False: for an array with a usage per value whose usages are fewer than two or not in a row, extractor.py:214 prints a remark first, and standard output is no script. C92_exactly gives the remarks for every accepted descriptor; without any the script rebuilds the tree. With a named file the file is right."),
 ("C93", "proved", ["C93", "C93_compiled", "C93_order"],
  "views is a fold over the class and number of the items in the bytes; C93_order is the special case of reordering, Push, Pop, Delimiter and overwriting."),
 ("C94", "proved", ["C94", "C94_error", "C94_compiled"],
  "joined (FollowSpec.v) says how the members of both trees are put together; views as in C93. C94_compiled joins it with C82."),
 ("C95", "partial", ["C95_partial", "C95_script_partial", "C95_refuted"],
  "False: report 0 after another report, values after the last collection, arrays whose collection is not a NamedArray by its usage, fields of one value per usage. Proved for every byte string whose tree has none (found_again, TwiceSpec.v); unoptimised bytes. C95_script_partial: the same through the printed script."),
 ("C96", "proved", ["C96_total", "C96_blob", "C96_script"], "Trees are those of constructors (well_formed); attributes assigned later are not modelled."),
 ("C97", "partial", ["C97_ids", "C97_optimised", "C97_limit_partial", "C97_refuted"], "The ids are those of the Reports and at least 1, for every tree; at most 255 when each Report begins with values (C97_limit_partial), false otherwise (C97_refuted): an empty Report may have any larger id, and a value after it is then read in that report."),
 ("C98", "partial", ["C98_numbered_partial", "C98_unnumbered_partial", "C98_refuted"], "Proved when a numbered Report begins before the first value, or no Report is numbered (optimised: and the tree ends in a collection); false when values come before the first numbered Report (C98_refuted)."),
 ("C99", "partial", ["C99_partial", "C99_kinds_partial", "C99_places_partial", "C99_refuted"], "All attributes of the fields, also of Inputs, Outputs and Features of one id by themselves, for trees without Report(0); optimised: kinds, ids and sizes, for trees that end in a collection; false with Report(0), whose fields are read in the report before it (C99_refuted)."),
 ("C100", "proved", ["C100_fields", "C100_places", "C100_compiles"], "Trees are those of constructors (well_formed); optimised ones end in a collection; C100_compiles is for collection types that are not negative and alignments up to 2^32, as C55."),
 ("C101", "partial", ["C101_partial", "C101_refuted"], "Proved without optimisation, for every tree; false with it (C101_refuted): a field may be joined with the next one; C104 has optimised trees that end with a collection."),
 ("C102", "proved", ["C102_length", "C102_bounds"], "Trees are those of constructors (well_formed); optimised ones end in a collection; a value counts for the last numbered Report before it, see C25."),
 ("C103", "proved", ["C103_fields", "C103_places"], "Trees are those of constructors (well_formed); optimised ones end in a collection."),
 ("C104", "proved", ["C104", "C104_condition"], "The tree ends with a collection (closed_tree); C104_condition shows that this is needed."),
]

here = os.path.dirname(os.path.abspath(__file__))
root = os.path.dirname(here)
names = set()
for f in os.listdir(root + "/rocq/theories"):
    if f.endswith(".v"):
        names |= set(re.findall(r"^Theorem (\w+)", open(root + "/rocq/theories/" + f).read(), re.M))
for c in CLAIMS:
    for t in c[2]:
        assert t in names, t
out = {"claims": [dict(property=p, status=s, theorems=t, note=n) for p, s, t, n in CLAIMS]}
json.dump(out, open(root + "/MANIFEST.json", "w"), indent=1)
listed = {t for c in CLAIMS for t in c[2]}
print("theorems not in the manifest:", sorted(n for n in names - listed if re.match(r"C\d\d", n)))
