# Formal model of Trark/magmaflow in Rocq (Coq 8.16.1)

magmaflow reads SPIR-V binaries (`spv::raw::read_module`), groups the
instructions into the SPIR-V logical layout (`spv::logical::validate`),
rebuilds structured control flow (`spv::logical::find_control_flow`) and prints
all of it (`Display`). The crate is pure, single threaded code, so almost all
of it is modelled.

## Layout

    rocq/theories/
      Base.v            outcome type (Ok/Err/Panic/OutOfFuel), bind, casts     hand written
      Types.v Ops.v     operand types, op structs, Core                       generated
      ReadErr.v         ReadError                                             generated
      ReadBase.v        Stream, MemoryBlock, u32/Vec/Option/LitString readers hand written
      Utf8.v            String::from_utf8                                     hand written
      ReadOperands.v    MemoryBlockRead for enums and masks                   generated + hand written
      ReadOps.v         def_op_read!, read_core, opcode dispatch              generated
      Reader.v          read_instruction, read_module                        hand written
      MemoryBlock.v     user code written against MemoryBlock                 hand written
      ReaderState.v     Reader.v again, for instruction sets with side effects hand written
      ValidateState.v   Validate.v again, for extended instructions whose Clone has side effects hand written
      ModuleState.v     derived Clone and PartialEq, for extended instructions whose clone and eq have side effects hand written
      ExtSet.v Glsl450.v extended instruction sets; glsl450::InstSet          hand written
      Groups.v          logical groups, OpByBlock, From<Core>                 generated
      Validate.v        parser.rs                                             hand written
      ValidateStack.v   parser.rs again, with the depth of its recursion         hand written
      ValidateCount.v   parser.rs again, counting the looks at instructions      hand written
      ControlFlow.v     control_flow.rs: find_control_flow                    hand written
      ControlFlowCount.v  the same, counting its calls                        hand written
      Display*.v        Display impls as functions to strings                 generated + hand written
      DisplayStack.v    the chain printers again, with the depth of their recursion hand written
      Fmt*.v ErrText.v  Display impls into a writer that may fail; error texts generated + hand written
      Debug*.v          Debug impls: trees of builder calls, and their text   generated + hand written
      Spec_*.v          specifications, hand written, no reference to the model's functions:
                        Unicode, Tables, Opcodes, Operands, Wire, Failure, Calls (reader); Layout (validator);
                        Flow, Structured (control flow); Names, Text, Writer (printing);
                        Machine (whole runs); Stack, Cost (recursion, calls); Invariance, Size; Debug
      Proofs_*.v        lemmas
      Prop_*.v          the property theorems, each `exact lemma.` + Print Assumptions
      Samples*.v        concrete modules and functions used by the Examples beside the theorems
      Fixtures.v, Fixtures_Load.v   the repository's own tests run through the model (tests, not proofs)
    tools/gen.py        translates the repetitive Rust tables to Gallina with file:line citations
    tools/fixtures.py   writes Fixtures.v from the repository's test data
    tools/manifest.py   writes MANIFEST.json from the Prop_*.v files
    seeded/LOG.jsonl    wrong programs the theorems were tried against

The generated files are committed. `tools/gen.py` only transcribes the model
side; the specification tables (opcode numbers, enumerant values, operand
lists, names) are written by hand from the SPIR-V 1.0 specification, so a
transcription error or a wrong number in the code shows as a failed proof.

## Modelling decisions

* Numbers are `N`; `u8/u16` casts are written as `mod`. Words produced from bytes are
  proved to be below 2^32, nothing in the code does arithmetic that could overflow
  (indices are bounded by lengths; the only sum is the `indent + 1` of the chain printers, a u32 that counts nesting: C97).
* Bytes are `ascii`; Rust `String`/`&str` are Coq `string` (byte strings). `String::from_utf8`
  is modelled by a decoder and related to a separate Unicode specification.
* `Result` and panics: `outcome E A = Ok a | Err e | Panic | OutOfFuel`. `assert!`, `unimplemented!`,
  `expect`, slice indexing and division by zero are explicit `Panic`.
* Loops and recursion: structural where possible, otherwise on fuel. The fuel given to the reader
  and validator loops is a length and `OutOfFuel` is proved unreachable. For
  `find_control_flow`, which really can recurse forever, fuel is the recursion depth and is a
  parameter of the model: "returns r" is "there is a depth at which the model returns r".
* `HashMap` is an association list with insert/get; iteration order is never used by the code. C118 justifies this: with
  a hash table in its place (HashTable.v, ControlFlowHash.v, ReaderHash.v) the results are the same for every hash function.
* `OpId`, `ResultId`, `MemberIndex`, `SourceVersion`, `BlockId` (newtypes of u32) are `N`; the
  printers know which they are.
* Extended instruction sets (`Box<ExtInstSet>`, user extensible) are records of arbitrary
  functions over an arbitrary instruction type `E`; all theorems quantify over them.
  `duplicate` may return a set that behaves differently: both behaviours are fields. That is
  Reader.v, which most theorems are about. In ReaderState.v the methods are state transformers of an arbitrary
  world and may panic (interior mutability, I/O); C83 says that the two agree for sets whose answers do not
  depend on the world. A `Drop` implementation of the sets and
  instructions is modelled in ReaderOwned.v (C119) and ValidateOwned.v (C120), except for one that panics.
* Formatting is modelled twice. Display*.v are the texts under the plain `{}` format string (and the
  `{:>12}` used inside). Fmt*.v keep every `write!`, `try!` and the options of the `Formatter`, for any
  writer: a state type and a `write_str` that may do anything and may fail. C68 relates the two.
  `core::fmt` (`write`, `pad`, `pad_integral`) is modelled by hand in FmtBase.v.
* Stack overflow, allocation failure and running time are not modelled as such. The steps of the reader are counted (C126). The depth of recursion is, for the
  recursive functions that follow the input (`read_many` in validation, `search_block`, the two `fmt_indent`), and the number of calls of `search_block`.
  What the reader reserves in advance (`Vec::with_capacity`) is modelled in ReadAlloc.v; growth of a vector by `push` is not.

Modelled: src/spv/raw (read_module and everything below it, RawModule's Display, ReadError),
src/spv/{types,op,dis,mod}.rs as far as the supported opcodes are concerned, src/spv/logical (groups,
parser, control_flow), src/glsl450; MoreOps.v: the op structs with a Display that no opcode is read into.

The derived and hand-written `PartialEq` (Equality.v generated, EqMore.v by hand).

`clone` of the crate's own types is the identity. The `Clone` of the user's extended instructions is the identity in
Validate.v, which most theorems are about, and an arbitrary state transformer that may panic in ValidateState.v; C90 says
what validation does then, and that the two agree for copies that equal the original. Likewise ModuleState.v has the derived
`Clone` and `PartialEq` of everything that holds extended instructions, with a user's `Clone` and `eq` that may do anything: C105, C106.

The derived `Debug` of all these types and the hand-written one of `ExtInstBox` (Debug.v generated, DebugMore.v by hand):
each derive is the tree of calls it makes of `debug_tuple`, `debug_struct` and `debug_list`; DebugBase.v gives the text of a
tree under `{:?}` without options, DebugPretty.v the one under `{:#?}`, DebugOptions.v both with a width, alignment, fill, sign, zeros and precision. DebugWriter.v keeps the writes. DebugHex.v has the
flags for hexadecimal numbers, `{:x?}` and `{:X?}`. Which characters are
printable, two of the short escapes, and whether the last item of a list over several lines has a comma, changed between
releases of the standard library: they are parameters.

PlainOps.v (generated): the op structs that are neither variants of `Core` nor have a Display, with their derived equality
and Debug; DebugOps.v (generated): the derived Debug of the structs of MoreOps.v.

KernelTypes.v: the two types of types.rs that no other type contains.

Not modelled: Cargo/lib glue.

## Plan per property

Reader (Spec_Wire: opcode and operand table, string packing, flags, chunk and module grammar,
canonical encoder; Spec_Unicode: scalar values and UTF-8):

* C04 is the central theorem: `read_module known data = Ok m <-> wire_module known data m`. Each operand
  reader gets a lemma "reads a and leaves rest <-> the words are a wire form of a followed by rest",
  composed per op, per instruction, per stream.
* C01, C02, C05 follow from C04 with the canonical encoder being a wire form. C03 is proved directly
  for all outcomes, errors included, by relating the two streams. C06 by totality lemmas per reader.
  C07, C08, C09, C24 by induction on the instruction loop (locality of one instruction read).
* C10: hand-written SPIR-V opcode table, case analysis over the finite opcode space lifted to all N.
* C11, C20, C21: instruction-level lemmas lifted to `read_module`.
* C12, C13: invariant of the import map along the loop, spec is over the list of earlier instructions.
* C14, C15: string packing and UTF-8 lemmas. C16, C17, C22: bit lemmas. C18: enumerant tables.
* C70 (Spec_Failure: operand table, scanning left to right, ways to fail): each operand reader gets a lemma "scans
  to the same leftover or the same error", composed per op; then both directions over the instruction loop.
* C19: the bound word only flows to the field. C23: corollary of C04 and a direct lemma.

Validator (Spec_Layout: writing a logical module out, canonical form, instruction kinds):

* C25/C26: parser = inverse of writer; both directions by induction, then iff. C27 totality.
* C28, C29: error positions, by viable-prefix lemmas for each phase.
* C30-C32: from canonicity. C33/C34: relational induction. C35: composition with C04/C05.

Control flow (Spec_Flow: paths of a function and executions of a chain; Spec_Structured: structured
programs and their lowering to blocks):

* C36/C37: segment lemma for `search_block` by induction on depth and on trace length.
* C38-C42, C44, C45, C49, C51: induction on depth. C43, C48: block map lemmas.
* C46: a block repeated on a call path while the search stops at the same blocks implies divergence, also if it meanwhile
  stops at further ids no block has, for there it failed before; with o blocks left at which it does not stop, o different
  calls can follow. The depth this gives is reached by a tower of loops whose last merge block is missing.
* C47: induction on the rank. C50: explicit family, induction on n.

* C65: both directions by induction, on the depth and on the program. C66: the lowering of a well-formed
  program meets C65's relation, by induction on the program.
* C71 (Spec_Trouble: ways reading a function as a program goes wrong): both directions by induction, on the
  depth and on the derivation, on top of C65's lemmas. C72: coinductive relation; one direction by coinduction,
  deciding at every nested call with C46's bound whether it returns, the other by induction on the depth.
* C93 (Spec_Standard: dominance by executions, back edges, constructs, the rules of section 2.11 of the standard): an
  inductive notion of the parts of a program; by induction on it, a part is entered only at its first block, from
  earlier blocks, and its first block is reached through earlier blocks. That gives dominance, and the rules follow. The
  loop and the continue construct are taken together, and the order of the blocks is not among the rules.

Display (Spec_Text, Spec_Names): C52, C53, C55-C58, C60 by structural induction; C54 by cancellation lemmas
per operand printer. C59 direct. C62-C64: the exact line of an instruction from the tables of the standard,
case analysis over the instructions, operands by induction. Spec_Page: the whole texts as lines each ended by a line
feed, by structural induction. C61: corollary of the reader theorems.

Printing into a writer (Spec_Writer): C67 by case analysis. C68: `prints p text` is closed under sequencing;
every printer is a sequence of pieces, so its text is the concatenation, by case analysis over the
instructions and induction on lists and chains. C69: the options do not occur in the printers; counterexample; the
exact effect on the operands of an instruction (Spec_Options: std's fill, precision, sign and zeros) by computation per
opcode.

Equality (Spec_Equality): C73 instance by instance, each derived eq is identity if the eqs of the fields are. C74
by case analysis. C75: writing out (C25) turns equality of logical modules of the same shape into equality of
instruction lists, and C33 gives the same shape; texts and control flow by induction.

Instructions that are not decoded (Spec_More; MoreOps.v generated): C76 as C62, C77 as C54, C68 and C73.

Whole runs (Spec_Machine: executing the flat instruction list): C78 relates positions in the list to blocks; one
direction by induction on the run, the other by induction on the walk; then C36/C37. C79 composes C01, C26, C66.

Depth of recursion (ValidateStack: the validator with a limit on active calls of its recursive list reader; Spec_Stack:
the depth as a function of the result): C80. A run needs one number of calls, composed along the run; it is computed
from the result for accepted modules and bounded by the instructions left for all.

Work of the validator (ValidateCount: the validator counting its looks at an instruction; Spec_ValidateCount: the looks as a
function of the result): C98 by a lemma per phase (looks of an item, at most two per instruction; looks at the end of a list).

Cost of find_control_flow (ControlFlowCount: the search with a count of its calls; Spec_Cost: depth and calls as functions
of a structured program): C81, C82 by induction on the program, as C65; bounds by induction; C50 for the exponential case.

Calls to the extended instruction sets (ReaderState, Spec_Calls: which methods are called on what, in which order, as
relations between bytes, calls with answers and results): C83 by induction on the loop, both directions, from the C70
lemmas for instructions that make no calls; agreement with Reader.v by simulation.

Code written against MemoryBlock (MemoryBlock: such code as a tree of calls of the public methods, which is all it can do
with its block; Spec_Block: what the code sees): C94. The exact session by induction on the tree; that the crate's readers are
such code by building the tree, reader by reader; lists by induction on the words; modules from C06 and C12. Simplification: a
`read` without `self` that keeps state of its own between calls is not such code.

What results do not depend on (Spec_Invariance: renamed functions, blocks, chains and errors): C84 from the exact import
rule (C04, C18); C85 by simulation of the search on renamed blocks, fuel by fuel, for every result; C86 by the same
simulation with lookups in a permuted and extended list, and from the C48 relation for chains.

Size of accepted input (Spec_Size: words an instruction needs): C87 by induction on the wire format (C04).
Length of its text: C99 by the length of every operand and instruction (case analysis, one word gives at most 31 bytes), then
the same induction; the inputs that show the factor to be exact are lists of OpCapability.

Debug (Spec_Debug: Rust's string literals, field names, kinds of operands; Spec_ShownResults: errors and chains; Spec_Shown: the whole output of an instruction,
computed from the standard's tables): C88 by showing that each kind of tree ends where a
closing character follows, and that each type makes different trees of different values; C89 by computation per
instruction and induction over the characters of a string.

Structs only (Spec_Plain: the operands of the remaining instructions of the standard, by class): C91. Equality and Debug as C73
and C88, struct by struct; the operands by computation per struct, and back by building the struct from the values (Spec_PlainFields: the constructors).

Debug over several lines (Spec_Pretty: the lines, and how to get back to one line): C92 by induction over the tree; the
indentation at each level is not seen when the lines are joined, so that C88 carries over.

Debug with options (Spec_DebugOptions: the leaves that change, and how to get back to the text without options): C95 by
induction over the tree; taking out blanks, line feeds, signs and zeros outside of literals gives the text of C88.

Debug into a writer (DebugWriter keeps every write; Spec_Writer, Spec_DebugWriter): C96 by induction over the tree, as C68. The adapter that
indents is itself a writer around the writer, so a lemma carries "prints" through it.

Debug with hexadecimal numbers (DebugHex; Spec_DebugHex: hexadecimal numerals, and how to get back to decimal ones): C100 as C95 and
C96; what is left of a hexadecimal number when the options are taken out is still a word with its value, and no name is one.

Depth of printing (DisplayStack: the chain printers with a limit on active calls and a u32 indentation; Spec_DisplayStack: nesting):
C97 by induction on the limit; the relation to the search by induction on its depth; the bound is met by nested selections.

Memory reserved in advance (ReadAlloc; Spec_Alloc: what an instruction should reserve): C101 by case analysis per instruction, then by
induction along the loop; the families that meet the bounds by computation of one step and induction.

Printers that are ended on the way (Spec_Stop: the text as lines, instructions to show and blocks that cannot be shown, performed up
to the first that does not end well): C102 by induction over the chain, with a lemma that joins the items of two printers in a row.

Debug ended on the way (Spec_DebugStop: the text as pieces at levels of indentation, performed up to the first instruction that does not
end well): C104 by induction over the tree, with a lemma that the adapter which indents raises the level of every piece by one.

Work between the calls of the search (ControlFlowWork: the search with counts of calls, looks at the flow list and chains moved; what
a Vec does to grow and the block map are not counted; Spec_Work: looks and moves of a program): C103 by induction over the program,
as C81 and C82; the bounds by induction over statements; the families that meet them by induction on their size.

Copies of extended instructions (ValidateState, Spec_Copies: which instructions are copied, in which order): C90 first
for a Clone that cannot panic, by a lemma per phase that relates the run with copies to the run without on the copied
input; then for any Clone by running it in a world that can die. That the verdict does not depend on the copies
is C34.

Copying and comparing whole values (ModuleState; Spec_UserCode: the code of functions in order, and the questions a comparison puts,
each either about data or to the user's eq): C105 by one lemma for a list of parts that copy their own code, and one for a struct
around a list. C106 likewise: a run of the model puts a list of questions; from the list follow the pairs the user's eq is called for
and when the answer is yes.

Length of control-flow text (Spec_TextLength: the parts of a chain; Prop_TextLength): C107 from the exact lines of C64, by induction
over chains and, for chains that were found, over the structured program of C65 (an exit is a block with four lines of its own; outside
of loops a block has at most three). The families are nested exits in one loop (found by C66) and nested selections.

What a chain says (Spec_Visible: what is looked at of a block; Prop_Visible): C108 from the structured program of a chain (C65, C66):
two programs with the same chain differ only in conditions and continue targets. For errors and panics a lockstep of the search over
a function and over the function with everything else removed.

Defaults of the flag operands (Spec_Default, Prop_Default): C109 by splitting the mask into its bits.

**C110, C111** (Spec_Frames, Proofs_Frames, Proofs_Nesting, Prop_Frames). The searches started by a search are written as
two relations: on to the next block of the sequence, and into a construct. Where a sequence goes on depends only on the
block, so a sequence that starts at the same block and ends at the same block goes through the same blocks. By
well-founded induction over the searches started, no construct contains its own start: if it did, the part of the
sequence on the way in would be gone through again inside, and so on without end. A sequence has no block twice, since
the search would not return. Hence with h constructs around it a sequence has at most n - 1 - h blocks, and the sum is the
bound. A tower of loops, each containing everything before it, needs exactly that much. The exit that contains itself is a
function of four blocks.

**C112** (Proofs_ChainSize, Prop_ChainSize). Where the search goes on after a block is a function of the block, and from every block
it visits that way leads to the block that returns, so it has no cycles. What is in the arms of a selection never leads to
the selection, and what is before the selection in its sequence does, so the two have no block in common. Going along a
sequence and keeping the set of blocks met so far, each block at most doubles what is there: a loop contains at most as much
as its set allows, and a selection twice what a set disjoint from the one before allows. A selection between twice the same
selection, and so on, reaches both bounds.

**C113** (Proofs_AnyCalls, Prop_AnyCalls). The size bound of C112 for every search that returns, in any context, not only for
those on the way to a return: a block that came up twice in one sequence would make it endless. Then along the levels that have
not returned: each has at most two searches that have. The bound on the calls of functions without a chain is not exact.

**C114** (Spec_Returns, Proofs_Returns, Proofs_ReturnsCalls, Prop_Returns). The hypotheses are the dominance rules of Spec_Standard
and two conditions of Spec_Returns. The invariant: on the stack of the search every block is reached from the one before by edges that
go onward in the dominator order, or by a step to a merge block, and none is reached again, because a way back would go through a back
edge, at which the flow list stops the search. So the stack is as deep as there are blocks, and one more for a block that is missing.
Each of the rules that is used is shown to be needed by a function that meets the others and on which the search does not end
(Samples_Returns); that these functions obey the dominance rules is decided by a checker proved sound in Proofs_Rules and evaluated
in the kernel.

**C115** (Spec_Simple, Proofs_Simple, Proofs_Simple2, Proofs_SimpleCheck, Prop_Simple). `simple` is stated with the branches, declarations and
constructs of Spec_Standard and does not mention the search. From simple to a chain: an invariant of the search lists the constructs that are open
(header and merge block, outermost last); the block searched is in all of them, or is the merge block of the innermost selection, and is in no other
construct that it does not head. Under it every call returns the continuation that its innermost construct expects, and C114 bounds the depth. From a
chain to simple: by induction on the successful search. A call that succeeds with the continuation of its innermost construct has a way without back
edges to a branch that goes there; a branch that left a construct elsewhere would, by the entry rule, have to come back through a header that leads to it,
which closes a cycle without back edges. Dominance is a statement about lists of blocks and so stable under double negation, which keeps the proof
free of the excluded middle. The example uses a boolean check of the five conditions that is proved sound.

**C116** (Spec_Occurs, Proofs_Occurs, Proofs_Occurs2, Proofs_Occurs3, Samples_Occurs, Samples_Nested, Prop_Occurs). `occurrences` counts a block id in the ids that the
chain names. For a fixed block v, every successful call of the search names v once if it starts there, plus once for each branch, taken or continued after
a merge, that its chain follows to v; summed over the chain this turns the count of v into a sum over the calls on the blocks with a branch to v
(other_hits), or over the calls on its header (merge_hits). Which branches the search follows at a block does not depend on the call, by the invariant of
C115. The exponential family nests k selections whose arms meet in the header of the next; a rank that all branches increase, and the observation that
headers and merge blocks cannot be jumped over, give its dominance relation and so the rules, C115 gives its chain, and C116_other the count.

**C117** (Spec_Image, Proofs_Image, Proofs_Image2, Samples_Occurs, Prop_Image). From a graph to a program: C115 gives a chain, C65 the program it comes from,
C116 that the chain names no block twice; then exits stand where the loop starts again (placed_last), the blocks are those of the program, and a loop without
an exit could not reach its merge block (loop_left). From a program to a graph: C93, its order of blocks for the two further conditions, and C115 and C116
read backwards. Uniqueness: the chain determines the program but for conditions and continue targets, and these stand in the blocks.

**C118** (HashTable, ControlFlowHash, ReaderHash, Spec_Hash, Proofs_Hash, Prop_Hash). The derived Hash of the two id types and a table of buckets
whose hash function and enlarging policy are arbitrary. The table stands for an association list when every entry is in the bucket
of its key and every lookup agrees; insertion, with or without moving all entries to a new table, keeps this. The reader and the control-flow
search are written a second time over the table, and agree with those of Reader.v and ControlFlow.v by induction on the fuel. Not modelled:
open addressing (the buckets are lists) and the memory that a table takes.

**C119** (ReaderOwned, Spec_Drop, Proofs_Drop, Samples_Drop, Prop_Drop). The reader with the hash table of C118 and with the drops that Rust inserts: of the
value that an insertion replaces, of an instruction with words left over, and of the local variables and arguments of read_module however it is left. The
table has exactly the entries that were inserted, up to order, while ids are not imported twice. The reader is compared, step by step, with that of C83
running on sets that write down the calls; what was made up to a point is in the map, in the vector of instructions, or has gone.

**C120** (ValidateOwned, Spec_Owned, Proofs_Owned, Prop_Owned). The validator of C90 with the drops that Rust inserts: what a function owns goes when a function
it calls fails or panics, and the vector of instructions goes last. The validator is compared with that of C90 running with a Clone that writes down the
copies: what was written down is in the result or has gone, up to order.

**C121** (Spec_Split, Proofs_Split, Samples_Split, Prop_Split). One call of the search for the block is two calls in the function with the cut; both runs
are compared by induction on the depth, once from the depth of the first run (twice of it suffices for the second) and once from that of the second. Files (Proofs_Replace): as for C122, every instruction of
the new file is in the old one but for a label and a branch. With the blocks joined again, every instruction is in the file with the cut. Executions (Spec_Halves, Proofs_Halves): from the
proofs for C139. The rules of the standard (Proofs_Halves2): dominators of the function with the cut in terms of those of the other; the branch of the block and its header
are now those of the second part. The other way (Proofs_Halves3): the same lemmas; a new label that a loop already names as its continue target is left out, since only the cut
makes a block of it (Samples_Joined has such a function).

**C122** (Spec_Inline, Proofs_Inline, Samples_Inline, Prop_Inline). What the search finds in the inlined function does not depend on what the flow list
had before, since no label is shared, so every part of it that converges is found as before, and where it returned the search goes on in the second part of the
block; the two runs of the first function are then compared as for C121. Executions (Spec_Inlined, Proofs_Inlined): induction on the length of an execution of the inlined function, which at the first part of the block enters the second function and can leave it only to the second part; no search is involved. Files (Proofs_Inlined3): every instruction of the new file is in the old one but for a label and branches, which stand in files of their own. Taken out again (Proofs_Replace), every instruction is in the file with the inlined function. Blocks that are reached (Proofs_Inlined4): what the right side says is kept by every branch of the inlined function. What must be come through (Proofs_Inlined5): from the executions, with the same execution of the inlined function put in everywhere, or with the first time the call is reached.

**C123** (Spec_Mirror, Proofs_Mirror, Samples_Mirror, Prop_Mirror). By induction on the depth of a search that is Ok; the other direction because exchanging twice
changes nothing. Files (Proofs_Replace): an exchanged branch has the words of the old one in another order. Executions (Spec_Turned, Proofs_Turned): induction on the blocks executed. The rules of the standard (Proofs_Turned2) are about
executions, merge instructions and numbered branches; the two numbers change places.

**C124** (Proofs_Listing, Proofs_Listing2, Prop_Listing). The lines are taken apart by induction over both chains; the branch line of a header tells a
loop from a selection, because a found chain has a loop only where the block does not end in a conditional branch.

**C125** (Spec_Care, Proofs_Care, Proofs_Care2, Samples_Care, Prop_Care). From the exact acceptance (C04): for every operand the words that are a wire form of it are
those that agree with one of them in the bits of a mask; then by induction over the operands and the instructions.

**C126** (CountBase, CountOperands, CountOps, CountReader, Spec_ReadCost, Proofs_ReadCost to Proofs_ReadCost3, Samples_ReadCost, Prop_ReadCost). CountOperands and CountOps
are written by tools/count.py from ReadOperands and ReadOps, definition by definition, over outcomes that carry a number of steps. For every reader: it gives what the
uncounted one gives, and takes at most nine steps for each word it goes over, one more if it fails.

**C127** (Spec_Dominate, Proofs_Dominate, Proofs_Dominate2, Samples_Dominate, Prop_Dominate). Three functions along the chain say whether it can be executed to an end, up to a block,
and from a block on, avoiding given blocks. Each is shown to be exact for the executions of chains, by induction over the chain one way and over the execution the other;
then the executions of the function are those of the chain (C36, C37).

**C128** (Spec_Cut, Proofs_Cut, Prop_Cut). The state of the layout automaton of C28 after the first instructions follows from how many memory models, OpFunction and OpFunctionEnd there were.
The parts of the result are what a picker collects from the instructions, which goes along with appending; functions are separated by their OpFunctionEnd, and the declarations are
the functions before the first one with a body.

**C129** (Spec_Circles, Proofs_Circles, Samples_Circles, Prop_Circles). Going round a circle n times is an execution of the chain for every n. An execution of a chain has, after the last header
of a loop, at most as many blocks as the chain names, and has a block that does not come around at most that often. If no block is named twice, two executions of a block are
in the same loop, and the way between them stays in it; then C127.

**C130** (Spec_Order, Proofs_Order, Prop_Order). The instructions of an accepted module are those of the logical module written out (C26); each part can be picked out of the list by the group
of the instruction, and picking commutes with permutations. An order of the parts is canonical if the first definition has a body. The layout only looks at the kinds (C28).

**C131** (Spec_Lengths, Proofs_Lengths, Prop_Lengths). The three are instances of one computation along chains; that it is exact is proved once, by induction over the chain, from what each
instance says about sets of executions: nothing, one execution, disjoint unions, and concatenations. Concatenations and unions are unambiguous because an execution of a part of a chain
is not the start of another one, and determines how it ended. Executions of the chain are those of the function (C36).

**C132** (Spec_Neighbours, Proofs_Neighbours, Prop_Neighbours). The state of the layout automaton after an instruction is determined by the kind of that instruction, so the automaton only
compares neighbours. Adding and removing then change one or two pairs; the parts of an accepted list come in order, so comparing with the neighbours is comparing with all.

**C133** (Spec_Rearrange, Proofs_Rearrange, Prop_Rearrange). The reader keeps nothing between instructions but the imports. From the exact wire format (C04) every instruction of a file that was
read has words that depend on the earlier instructions only through the import of its set; these words can be put together in any order in which that import comes first.

**C134** (Spec_Link, Proofs_Link, Prop_Link). An accepted module is the list of its parts written out (C25-C27) and the imports are written before the functions, so every extended instruction comes
after all imports. The words of each instruction are taken from the file it comes from (C133); the only words that depend on other instructions are those of imports and extended instructions.

**C135** (Spec_Truncate, Proofs_Truncate, Prop_Truncate). Truncated input (C08) gives a start of the instructions; the layout automaton (C28) does not get stuck within a start of an accepted list and its
state is known from the last instruction (C132). For the number: cuts that are read correspond one to one to starts of the instructions, and those accepted to instructions after which the automaton is
outside functions.

**C136** (Spec_Renumber, Proofs_Renumber, Proofs_Renumber2, Prop_Renumber). Operand by operand, a renumbered instruction has the same operands or a word for a word, so its words can be written down from those of the original;
what an import or an extended instruction asks of the earlier ones is carried over (C133). Validation only looks at kinds (C34). For putting together, C134. For the control flow, the module of the renumbered file is written down part by part, and C85 applies to each of its functions.

**C137** (Spec_Prune, Proofs_Prune, Prop_Prune). That the chain is the same is C86, that it names only blocks that exist is C39, so no function can do with fewer. The file is put together from instructions of the
original with C134; the first function keeps its first block because the chain names it (C40).

**C138** (Spec_Unshare, Proofs_Unshare, Proofs_Unshare2, Proofs_Unshare3, Prop_Unshare). The chain determines a lowered program but for conditions and continue targets, and those are the ones of the blocks that are copied, so the function is unique. The program that C65 gives is written down again with new labels, which determine the old ones; lowering it commutes with going back to the old labels, so
its blocks are copies, and C66 says what its chain is. Exits stand at the end of loops because no block of a loop body is the start of the loop. The number of blocks follows from C39, the exponential example from C50.
For the file, labels, branches and merge instructions with other words in them can be read like the original ones, and the rest is taken over (C134).

**C139** (Spec_Rewrite, Proofs_Rewrite, Proofs_Rewrite2, Proofs_Rewrite3, Prop_Rewrite). For copies, C78 says that both lists of instructions do what the blocks of their chains perform, C138 relates the executions of the chains, and blocks perform what their copies perform;
leaving out blocks is the special case in which each block is its own copy. For a cut block, executions of the blocks are related by putting the two halves where the block was; for exchanged arms, by turning the decisions of the chosen blocks. With the same chain, both functions do what its executions perform, and decisions stand only where both blocks decide. For other numbers the two machines go in lock-step, forth always and back because jumps to different labels stay different. Inlining (Spec_Inlined, Proofs_Inlined2): the executions are those of C122, and the blocks of the inlined function perform what they performed, for a branch in place of a return performs nothing what has been done at some moment is a beginning of that, cut off before, in or behind the inlined work.

Every property can be expressed in the model, and every one is proved in full; a part that were not would be
named `_partial` and listed in MANIFEST.json.

## Trusted base

* Coq 8.16.1's kernel (including `vm_compute`, used in closed-term checks).
* `Print Assumptions` is printed under every property theorem and says "Closed under the global context" for
  each: no theorem rests on any axiom. No axioms are declared.
* Loading the standard library's `lia` machinery brings seven constants of `Coq.ssr.ssrunder.Under_rel`
  (`Over_rel`, `Under_rel_from_rel`, `over_rel`, `over_rel_done`, `Under_rel`, `Under_relE`, `under_rel_done`)
  into the environment; they are fields of a module sealed with a module type of the standard library, which
  `coqchk` lists as axioms. No theorem depends on them.
* That the model is a faithful reading of /repo: each definition cites the lines it models.
  Fixtures.v and Fixtures_Load.v additionally check that the model passes all of the repository's own tests: its
  expected disassemblies byte for byte, and the module that must be read from noop.spv field by field.
* That Spec_*.v say what SPIR-V / the English property say.
