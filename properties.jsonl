{"id": "C01", "title": "Reading back a little-endian encoding returns the module", "statement": "For every RawModule that SPIR-V can encode, read_module applied to its canonical little-endian SPIR-V encoding (written from the SPIR-V 1.0 wire format, not from this crate) returns Ok of exactly that module: same version, generator, bound and the same instructions in the same order with the same operands.", "quantifier": "every encodable module: any number of instructions, any mix of the supported opcodes, any operand values, any valid strings, any list of known instruction sets", "why_tests_cant": "each fixture exercises a handful of opcodes and operand values; the claim is about all modules of all lengths", "anchors": ["src/spv/raw/reader.rs:read_module", "src/spv/raw/reader.rs:read_instruction", "src/spv/raw/mod.rs:MemoryBlockRead"]}
{"id": "C02", "title": "Reading back a big-endian encoding returns the module", "statement": "For every encodable RawModule, read_module applied to its canonical big-endian encoding returns Ok of exactly that module.", "quantifier": "every encodable module", "why_tests_cant": "no fixture is big-endian at all, and one could only sample", "anchors": ["src/spv/raw/reader.rs:read_module", "src/spv/raw/reader.rs:Stream::invert_endianness", "src/spv/raw/reader.rs:Stream::read_word"]}
{"id": "C03", "title": "Endianness of the file never changes the outcome", "statement": "Reversing the bytes of every 4-byte word of the input (leaving any trailing partial word alone) does not change what read_module returns: the same module or the very same error.", "quantifier": "every byte string and every list of known extended instruction sets, well-formed or not", "why_tests_cant": "it relates the results on two arbitrary inputs, including malformed ones", "anchors": ["src/spv/raw/reader.rs:read_module", "src/spv/raw/reader.rs:Stream"]}
{"id": "C04", "title": "Exact acceptance", "statement": "read_module returns Ok(m) if and only if the bytes are a wire form of m: an accepted header followed by exactly the instructions of m, in order, each encoded by its SPIR-V opcode and operand words, with nothing between or after them.", "quantifier": "every byte string and every list of known extended instruction sets, and every module", "why_tests_cant": "an if-and-only-if over all inputs: tests can neither show that nothing else is accepted nor that everything valid is", "anchors": ["src/spv/raw/reader.rs:read_module", "src/spv/raw/reader.rs:read_instruction", "src/spv/raw/mod.rs:MemoryBlockRead"]}
{"id": "C05", "title": "Accepted input can be normalised", "statement": "If read_module accepts some bytes with result m, then m itself is encodable, reading the canonical encoding of m gives m again, and the canonical encoding has exactly as many bytes as the accepted input (so no input word is skipped or read twice).", "quantifier": "every byte string and every list of known extended instruction sets", "why_tests_cant": "the input space is all byte strings; the five fixtures in src/tests sample five of them", "anchors": ["src/spv/raw/reader.rs:read_module", "src/spv/raw/reader.rs:read_instruction"]}
{"id": "C06", "title": "The reader always terminates and never panics", "statement": "read_module returns Ok or Err on every input: no slice or division panic is reachable and the instruction and operand loops always terminate, provided the supplied instruction sets themselves return normally.", "quantifier": "every byte string and every list of known extended instruction sets", "why_tests_cant": "absence of panics and of infinite loops is a statement about all inputs", "anchors": ["src/spv/raw/reader.rs:read_module", "src/spv/raw/reader.rs:read_instruction", "src/spv/raw/mod.rs:Vec<T>::read", "src/spv/raw/mod.rs:MemoryBlock::read_word"]}
{"id": "C07", "title": "Only whole-word input of at least a header is accepted", "statement": "read_module returns Ok only if the input length is a multiple of four and at least 20 bytes; input whose length is not a multiple of four is always rejected.", "quantifier": "every byte string and every list of known extended instruction sets", "why_tests_cant": "the input space is all byte strings; the five fixtures in src/tests sample five of them", "anchors": ["src/spv/raw/reader.rs:Stream::read_word", "src/spv/raw/reader.rs:Stream::is_end"]}
{"id": "C08", "title": "Truncation is never silently misread", "statement": "Cutting an accepted input anywhere either gives the end-of-stream or misalignment error, or (when the cut is on an instruction boundary) gives a module with the same header whose instructions are a prefix of the original ones. It never yields different instructions.", "quantifier": "every accepted input and every cut point", "why_tests_cant": "every cut point of every input", "anchors": ["src/spv/raw/reader.rs:read_module", "src/spv/raw/reader.rs:Stream::read_word"]}
{"id": "C09", "title": "Errors are decided by the bytes before them", "statement": "If read_module fails with any error other than end-of-stream or misalignment, appending further bytes does not change the error; and if it succeeds, appending bytes can only extend the instruction list or produce an error.", "quantifier": "every input and every appended suffix", "why_tests_cant": "ranges over all pairs of inputs and suffixes", "anchors": ["src/spv/raw/reader.rs:read_module", "src/spv/raw/reader.rs:read_instruction"]}
{"id": "C10", "title": "Opcode classification", "statement": "For each of the 65536 opcodes, read_module treats an instruction with that opcode as exactly one of: supported (decoded to the Core variant SPIR-V assigns to the opcode), unimplemented (UnimplementedOp carrying the SPIR-V name of the opcode), or unknown (UnknownOp carrying opcode and word count), according to the SPIR-V 1.0 opcode table restricted to what the crate knows.", "quantifier": "all opcodes, all word counts and operands", "why_tests_cant": "65536 opcodes times all operand contents", "anchors": ["src/spv/raw/reader.rs:read_instruction"]}
{"id": "C11", "title": "An instruction must use exactly its declared words", "statement": "An instruction is accepted only if decoding its operands consumes exactly the words its header declares: leftover words give InstructionHadExcessData and missing words give UnexpectedEndOfInstruction, and operand decoding never looks at words of the next instruction.", "quantifier": "every instruction word sequence and every continuation of the stream", "why_tests_cant": "all instruction contents and all following data", "anchors": ["src/spv/raw/reader.rs:read_instruction", "src/spv/raw/mod.rs:MemoryBlock::read_word", "src/spv/raw/mod.rs:MemoryBlock::end"]}
{"id": "C12", "title": "Extended instructions resolve to an earlier import", "statement": "In an accepted module every OpExtInst names a set id that an earlier OpExtInstImport of the same module defines, and its instruction is what the first known set with the imported name reads from its operands.", "quantifier": "every accepted input, every list of known sets (including user-written ones)", "why_tests_cant": "depends on the whole history of imports before the instruction", "anchors": ["src/spv/raw/reader.rs:OpExtInst::read_core", "src/spv/raw/reader.rs:OpExtInstImport::read_core", "src/spv/mod.rs:ExtInstSet"]}
{"id": "C13", "title": "Import ids are unique and import names are known", "statement": "In an accepted module no two OpExtInstImport instructions share a result id, and each imported name is the name of one of the supplied sets; a second import with the same id is rejected with DuplicateResultId and an unknown name with UnknownInstSet.", "quantifier": "every byte string and every list of known extended instruction sets", "why_tests_cant": "depends on the history of imports", "anchors": ["src/spv/raw/reader.rs:OpExtInstImport::read_core"]}
{"id": "C14", "title": "String literals round-trip", "statement": "For every string without NUL, reading the null-terminated, zero-padded little-endian packing of the string into words, followed by any further words, gives the string and leaves exactly the further words; conversely a successful read returns exactly the bytes before the first NUL.", "quantifier": "every string of any length and every following word sequence", "why_tests_cant": "all string lengths modulo four and all contents", "anchors": ["src/spv/raw/mod.rs:LitString::read"]}
{"id": "C15", "title": "String literals are exactly valid Unicode", "statement": "A string literal is accepted iff its bytes before the NUL are the UTF-8 encoding of a sequence of Unicode scalar values (no surrogates, no overlong forms, nothing above U+10FFFF); otherwise InvalidString.", "quantifier": "all byte sequences", "why_tests_cant": "unbounded set of byte sequences", "anchors": ["src/spv/raw/mod.rs:LitString::read"]}
{"id": "C16", "title": "Version gate", "statement": "The version word passes exactly when its top byte is 0, the low nibbles of the next two bytes are 1 and 0 and the low nibble of the last byte is 0; every other version word is rejected with UnknownVersionBytes holding the decoded bytes. In particular 0x00010000 passes, other words pass too because the high nibbles are ignored, and UnknownVersion is never returned.", "quantifier": "all version words and all rest of input", "why_tests_cant": "2^32 words", "anchors": ["src/spv/raw/reader.rs:read_module"]}
{"id": "C17", "title": "Reserved flag bits", "statement": "A flags operand (memory access, loop control, selection control, FP fast math mode, function control) decodes exactly its documented bits, and the set of accepted words is exactly: the checked reserved bits of the low half-word are zero. Bits 16 to 31 (and bit 5 of the fast math mode, and all reserved bits of function control) are not checked, so unknown flags there are silently dropped.", "quantifier": "all flag words", "why_tests_cant": "2^32 words per operand kind", "anchors": ["src/spv/raw/mod.rs:MemoryAccess::read", "src/spv/raw/mod.rs:LoopControl::read", "src/spv/raw/mod.rs:SelectionControl::read", "src/spv/raw/mod.rs:FpFastMathMode::read", "src/spv/raw/mod.rs:FunctionControl::read"]}
{"id": "C18", "title": "Enumerant operands decode per SPIR-V", "statement": "For each enumerated operand type, a word decodes to a variant iff it is the SPIR-V value of that variant, distinct words give distinct variants, and any other word is rejected with the Unknown... error of that type carrying that very word (SourceLanguage and Tool instead keep the raw value in Other).", "quantifier": "all 2^32 words for each operand type", "why_tests_cant": "2^32 words for each of 20 types", "anchors": ["src/spv/raw/mod.rs:MemoryBlockRead", "src/spv/raw/reader.rs:read_module"]}
{"id": "C19", "title": "Id bound is reported, not enforced", "statement": "The bound field of the result is the fourth header word whatever the instructions contain: changing that word changes nothing but the field. So ids at or above the bound, and id 0, are accepted, contrary to the field's documentation.", "quantifier": "all inputs and all values of the bound word", "why_tests_cant": "all inputs", "anchors": ["src/spv/raw/reader.rs:read_module", "src/spv/raw/mod.rs:RawModule"]}
{"id": "C20", "title": "Word count zero", "statement": "An instruction whose header declares word count 0 is treated exactly like one declaring word count 1 (except in the payload of an unknown-opcode error), so such invalid modules are accepted.", "quantifier": "all headers and streams", "why_tests_cant": "all headers and streams", "anchors": ["src/spv/raw/reader.rs:read_instruction"]}
{"id": "C21", "title": "Aligned memory accesses are never accepted in valid form", "statement": "A memory-access operand with the Aligned bit followed by its alignment literal, as SPIR-V requires, makes OpLoad and OpStore fail with InstructionHadExcessData; the Aligned bit is only accepted without its literal.", "quantifier": "all loads and stores with an Aligned operand", "why_tests_cant": "all operand values", "anchors": ["src/spv/raw/mod.rs:MemoryAccess::read", "src/spv/raw/reader.rs:OpLoad", "src/spv/raw/reader.rs:OpStore"]}
{"id": "C22", "title": "Generator word", "statement": "The generator of the result is determined by the third header word: the tool is the registered tool of its high half (Other(n) for unregistered n) and the version is its low half; no two generator words give the same Generator.", "quantifier": "all generator words", "why_tests_cant": "2^32 words", "anchors": ["src/spv/raw/reader.rs:read_module", "src/spv/types.rs:Tool"]}
{"id": "C23", "title": "Reader never produces the undispatched variants", "statement": "No input makes read_module return a module containing OpTypeEvent, OpTypeDeviceEvent, OpTypeQueue, OpTypePipe or OpTypeForwardPointer, although Core and the validator support them; their opcodes are reported as unknown.", "quantifier": "every byte string and every list of known extended instruction sets", "why_tests_cant": "the input space is all byte strings; the five fixtures in src/tests sample five of them", "anchors": ["src/spv/raw/reader.rs:read_instruction", "src/spv/raw/mod.rs:Core"]}
{"id": "C24", "title": "Instruction-by-instruction compositionality", "statement": "Reading a header followed by two concatenated instruction streams equals reading the first and then reading the second with the imports of the first in force: instruction lists append and the first error wins.", "quantifier": "all splits of all inputs at instruction boundaries", "why_tests_cant": "all inputs and split points", "anchors": ["src/spv/raw/reader.rs:read_module"]}
{"id": "C25", "title": "Validation loses nothing", "statement": "If validate returns Ok(lm), writing lm back out section by section (capabilities, extensions, imports, memory model, entry points, execution modes, debug, annotations, globals, declarations, definitions with their blocks) gives exactly the instruction list of the raw module, in order.", "quantifier": "every raw module", "why_tests_cant": "every instruction list", "anchors": ["src/spv/logical/parser/parser.rs:validate", "src/spv/logical/parser/mod.rs:From<Core>"]}
{"id": "C26", "title": "Validation accepts exactly the logical layout", "statement": "validate returns Ok(lm) iff the instruction list is the written-out form of lm and lm is canonical (function-storage variables only in code, other variables only in globals, and the first definition, if any, has a block); lm is then the only such module.", "quantifier": "every raw module and every logical module", "why_tests_cant": "an if-and-only-if over all instruction lists", "anchors": ["src/spv/logical/parser/parser.rs:validate"]}
{"id": "C27", "title": "Validation never panics and terminates", "statement": "validate returns Ok or Err for every instruction list; the assertion in the cursor never fires.", "quantifier": "every raw module", "why_tests_cant": "absence of panics over all inputs", "anchors": ["src/spv/logical/parser/parser.rs:OpSlice::advance", "src/spv/logical/parser/parser.rs:read_many"]}
{"id": "C28", "title": "Validation errors point at the first offending instruction", "statement": "If validate fails with an error carrying index i, then i is within or just past the list, the first i instructions can be continued to a valid module, and (unless the list merely ends too early) no module that shares the first i+1 instructions is valid.", "quantifier": "every rejected raw module and every continuation", "why_tests_cant": "quantifies over all continuations", "anchors": ["src/spv/logical/parser/parser.rs:ValidationError", "src/spv/logical/parser/parser.rs:validate"]}
{"id": "C29", "title": "Missing memory model", "statement": "validate fails with MemoryModelMissing iff the instruction that follows the leading capabilities, extensions and imports is not OpMemoryModel; an accepted module contains exactly one OpMemoryModel.", "quantifier": "every raw module", "why_tests_cant": "all instruction lists", "anchors": ["src/spv/logical/parser/parser.rs:read_memory_model"]}
{"id": "C30", "title": "Variables are sorted by storage class", "statement": "In every module validate accepts, no global variable has storage class Function and every variable in a block has storage class Function.", "quantifier": "every raw module", "why_tests_cant": "all instruction lists", "anchors": ["src/spv/logical/parser/mod.rs:From<OpVariable>", "src/spv/logical/mod.rs:GroupGlobal", "src/spv/logical/mod.rs:GroupCode"]}
{"id": "C31", "title": "Blocks are well formed", "statement": "In every accepted module each function body is a sequence of label, non-terminator code, at most one merge and exactly one terminator; labels, merges, terminators, parameters and function markers never occur inside code.", "quantifier": "every raw module", "why_tests_cant": "all instruction lists", "anchors": ["src/spv/logical/parser/parser.rs:read_basic_block", "src/spv/logical/mod.rs:BasicBlock"]}
{"id": "C32", "title": "Declarations and definitions", "statement": "In every accepted module the first function definition has at least one block; function declarations come first. A body-less function that follows a definition is reported as a definition with no blocks, not as a declaration.", "quantifier": "every raw module", "why_tests_cant": "all instruction lists", "anchors": ["src/spv/logical/parser/parser.rs:read_function_declaration", "src/spv/logical/parser/parser.rs:read_function_definition"]}
{"id": "C33", "title": "Validation only looks at instructions", "statement": "validate's result does not depend on version, generator or bound, and, apart from storage class, not on operand values: only on the kind of each instruction.", "quantifier": "every pair of raw modules whose instructions have the same kinds", "why_tests_cant": "relates two arbitrary modules", "anchors": ["src/spv/logical/parser/parser.rs:validate"]}
{"id": "C34", "title": "No id checking in validation", "statement": "validate accepts modules with duplicate result ids, undefined ids and branch targets outside the function; acceptance is unchanged by any renaming of ids.", "quantifier": "every raw module and every renaming", "why_tests_cant": "relates two arbitrary modules", "anchors": ["src/spv/logical/parser/parser.rs:validate"]}
{"id": "C35", "title": "Read then validate is lossless", "statement": "If reading bytes gives m and validate(m) gives lm, then the canonical encoding of lm's written-out instructions under m's header reads back as m.", "quantifier": "every byte string and every list of known extended instruction sets", "why_tests_cant": "the input space is all byte strings; the five fixtures in src/tests sample five of them", "anchors": ["src/spv/raw/reader.rs:read_module", "src/spv/logical/parser/parser.rs:validate"]}
{"id": "C36", "title": "Structured control flow has the function's executions", "statement": "If find_control_flow returns Ok(chain), then a sequence of visited blocks and branch decisions is a complete execution of the function's control-flow graph from its entry block to a return iff it is a complete execution of the structured chain (sequence, selection, loop, break, continue).", "quantifier": "every function definition, every sequence of branch outcomes of any length", "why_tests_cant": "programs, paths and loop iterations are unbounded", "anchors": ["src/spv/logical/control_flow.rs:find_control_flow", "src/spv/logical/control_flow.rs:search_block"]}
{"id": "C37", "title": "Unfinished executions agree too", "statement": "Under the same hypothesis every finite prefix of an execution of the graph is a prefix of an execution of the chain and vice versa, so the chain also has the same infinite executions.", "quantifier": "every function, every finite path", "why_tests_cant": "unbounded paths", "anchors": ["src/spv/logical/control_flow.rs:search_block"]}
{"id": "C38", "title": "Break and continue are well scoped", "statement": "In a chain returned by find_control_flow, Break and Continue occur only inside a Loop, a Break leaves and a Continue restarts exactly the loop whose merge or header block is the branch target in the function.", "quantifier": "every function definition", "why_tests_cant": "all functions", "anchors": ["src/spv/logical/control_flow.rs:search_block", "src/spv/logical/control_flow.rs:FlowList::innermost_loop"]}
{"id": "C39", "title": "Every block named in the chain exists; every reachable block is named", "statement": "Every block id in a returned chain is the label of a block of the function and every block reachable from the entry occurs in the chain.", "quantifier": "every function definition", "why_tests_cant": "all functions", "anchors": ["src/spv/logical/control_flow.rs:search_block"]}
{"id": "C40", "title": "Entry block first", "statement": "The first block id in a returned chain is the label of the function's first block.", "quantifier": "every function definition", "why_tests_cant": "all functions", "anchors": ["src/spv/logical/control_flow.rs:find_control_flow"]}
{"id": "C41", "title": "Hints and weights are carried over", "statement": "Every Selection node that comes from a selection merge carries that merge's control and the branch's weights, every Loop node carries its loop merge's control, and break/continue selections carry the default control and the branch's weights.", "quantifier": "every function definition", "why_tests_cant": "all functions", "anchors": ["src/spv/logical/control_flow.rs:search_block"]}
{"id": "C42", "title": "Chains are flattened", "statement": "In a returned chain no Block is directly inside a Block.", "quantifier": "every function definition", "why_tests_cant": "all functions", "anchors": ["src/spv/logical/control_flow.rs:ControlFlowChain::block"]}
{"id": "C43", "title": "Block ids must be unique", "statement": "find_control_flow returns DuplicateBlockId(b) iff two blocks have the same label, where b is the label at the first repeated position, and NoBlocks iff the function has no blocks.", "quantifier": "every function definition", "why_tests_cant": "all functions", "anchors": ["src/spv/logical/control_flow.rs:find_control_flow"]}
{"id": "C44", "title": "Error payloads are real", "statement": "UnknownBlockId(b) is returned only for a b that some branch or merge of the function names but no block has; CouldNotPredictConverge(b) only for a conditional branch without merge; InvalidConvergePrediction only for a block carrying a merge instruction or for a conditional branch leaving a loop.", "quantifier": "every function definition", "why_tests_cant": "all functions", "anchors": ["src/spv/logical/control_flow.rs:ControlFlowError", "src/spv/logical/control_flow.rs:search_block"]}
{"id": "C45", "title": "Panics are exactly the unimplemented shapes", "statement": "find_control_flow can only panic if the function has an unconditional branch with a selection merge or a conditional branch with a loop merge; functions without such blocks never panic.", "quantifier": "every function definition", "why_tests_cant": "absence of panics over all functions", "anchors": ["src/spv/logical/control_flow.rs:search_block"]}
{"id": "C46", "title": "Termination", "statement": "find_control_flow does not terminate on every function (an unconditional self-loop without merge recurses forever), but it terminates iff it does so within recursion depth n(n+1)/2+1 where n is the number of blocks, and for every n>0 some function of n blocks that returns an error needs all of that depth; so divergence is decidable and stack depth is bounded whenever it returns.", "quantifier": "every function definition", "why_tests_cant": "non-termination cannot be observed by a test and the bound ranges over all functions", "anchors": ["src/spv/logical/control_flow.rs:search_block"]}
{"id": "C47", "title": "Forward functions terminate", "statement": "If blocks can be ranked so that every branch and merge target has a smaller rank than the block naming it, except branches back to an enclosing loop header, find_control_flow terminates.", "quantifier": "every function definition with such a ranking", "why_tests_cant": "all functions", "anchors": ["src/spv/logical/control_flow.rs:search_block"]}
{"id": "C48", "title": "Block order is irrelevant", "statement": "Permuting the blocks of a function other than the first does not change what find_control_flow returns (for functions with distinct labels).", "quantifier": "every function and every permutation", "why_tests_cant": "all permutations", "anchors": ["src/spv/logical/control_flow.rs:find_control_flow"]}
{"id": "C49", "title": "Code does not influence control flow", "statement": "The returned chain does not depend on the code inside blocks, on parameters or on the function header: only on labels, merges and terminators.", "quantifier": "every pair of functions with the same skeleton", "why_tests_cant": "relates two arbitrary functions", "anchors": ["src/spv/logical/control_flow.rs:find_control_flow"]}
{"id": "C50", "title": "Blocks may be duplicated", "statement": "A block shared by both arms of a selection occurs once per arm in the chain, so occurrences are not unique, and the chain can be exponentially larger than the function.", "quantifier": "a family of functions of every size", "why_tests_cant": "a claim about growth for every n", "anchors": ["src/spv/logical/control_flow.rs:search_block"]}
{"id": "C51", "title": "Printing a structured function never panics", "statement": "ControlFlowFunctionPrinter prints a function together with the chain find_control_flow returned for it without hitting its duplicate-label assertion or its missing-block expect.", "quantifier": "every function definition", "why_tests_cant": "absence of panics over all functions", "anchors": ["src/spv/logical/control_flow.rs:ControlFlowFunctionPrinter::fmt_block_indent"]}
{"id": "C52", "title": "One disassembly line per instruction", "statement": "If no string operand contains a line feed, the disassembly of a module has exactly five header lines plus one line per instruction, in order. Whatever the strings contain, the text is the five header lines and the texts of the instructions, each followed by one line feed.", "quantifier": "every module", "why_tests_cant": "all modules", "anchors": ["src/spv/raw/mod.rs:Display for RawModule", "src/spv/dis.rs:def_op_display"]}
{"id": "C53", "title": "Disassembly columns align", "statement": "Every instruction line starts with exactly 15 characters holding either spaces or the right-aligned result id and ' = ', followed by the SPIR-V name of its opcode.", "quantifier": "every instruction with a 32-bit result id", "why_tests_cant": "all ids", "anchors": ["src/spv/dis.rs:Result", "src/spv/dis.rs:NoResult", "src/spv/dis.rs:def_op_display"]}
{"id": "C54", "title": "Disassembly is faithful", "statement": "Two instructions with 32-bit result ids print the same text only if they are equal. Two modules whose strings contain no line feed print the same text only if their versions, generators, bounds and instruction lists are equal, except that unregistered generator numbers all print as Unknown. With line feeds in strings two modules with different instructions can print the same text.", "quantifier": "every pair of instructions; every pair of modules, in particular those accepted by read_module", "why_tests_cant": "relates two arbitrary instructions", "anchors": ["src/spv/dis.rs:FormatArg", "src/spv/dis.rs:DisplayArg", "src/spv/op.rs:def_op_display"]}
{"id": "C55", "title": "Numbers print in decimal without loss", "statement": "Ids and literals print as their shortest decimal form and distinct numbers print differently.", "quantifier": "all 32-bit numbers", "why_tests_cant": "2^32 values", "anchors": ["src/spv/types.rs:OpId", "src/spv/dis.rs:DisplayArgType"]}
{"id": "C56", "title": "Flag operands print every set flag once", "statement": "The text of a flags operand is 'None' iff no flag is set and otherwise the names of the set flags in bit order joined with ' | '; distinct flag sets print differently.", "quantifier": "all flag combinations", "why_tests_cant": "finite but large; includes all dependency lengths", "anchors": ["src/spv/types.rs:MemoryAccess", "src/spv/types.rs:FunctionControl", "src/spv/types.rs:LoopControl", "src/spv/types.rs:SelectionControl", "src/spv/types.rs:FpFastMathMode"]}
{"id": "C57", "title": "Control-flow text has balanced braces and correct nesting", "statement": "The text of every chain has balanced braces, closing at depth zero, and each line is indented by four spaces per enclosing brace.", "quantifier": "every chain", "why_tests_cant": "all chains", "anchors": ["src/spv/logical/control_flow.rs:ControlFlowChain::fmt_indent"]}
{"id": "C58", "title": "Control-flow text is faithful", "statement": "Two chains returned by find_control_flow, for the same or different functions, print the same text only if they are equal. Any two chains that print the same text are equal up to sequencing blocks.", "quantifier": "every pair of chains", "why_tests_cant": "relates two arbitrary chains", "anchors": ["src/spv/logical/control_flow.rs:ControlFlowChain::fmt_indent"]}
{"id": "C59", "title": "GLSL.std.450 set", "statement": "After importing GLSL.std.450, appending an extended instruction of that set to an accepted module appends Sin (number 13) or Cos (number 14) when exactly one operand follows, fails with UnexpectedEndOfInstruction when none does, with InstructionHadExcessData when more do, and with UnknownExtInstOp naming the set and the number for every other number. The op of an instruction (get_op) has the name GLSL.std.450 gives that number, and it and the instruction print as that name and the operand id.", "quantifier": "every accepted module and byte order, all instruction numbers and operand words", "why_tests_cant": "2^32 numbers", "anchors": ["src/glsl450/mod.rs:InstSet"]}
{"id": "C60", "title": "The function printer prints the named blocks or panics", "statement": "Printing a function along a chain yields text if and only if every block id named by the chain labels exactly one block of the function, and panics otherwise. The text, if the instructions print without line feeds, is the chain's nesting with each block id followed by the lines of that block's instructions. Whatever the instructions print, the text is those lines, each followed by one line feed.", "quantifier": "every function, chain and extended instruction printer", "why_tests_cant": "all functions and chains, including mismatched ones", "anchors": ["src/spv/logical/control_flow.rs:ControlFlowFunctionPrinter"]}
{"id": "C61", "title": "Two documented reader errors never occur", "statement": "read_module never returns UnknownVersion or WrongWordCountForOp, whatever the input, unless a supplied extended instruction set itself returns them.", "quantifier": "all byte sequences and all lists of extended instruction sets", "why_tests_cant": "absence of a result over all inputs", "anchors": ["src/spv/raw/mod.rs:ReadError", "src/spv/raw/mod.rs:read_module"]}
{"id": "C62", "title": "Every instruction prints exactly its operands", "statement": "The line of every instruction of an accepted module is the 15-character result column, the SPIR-V name of the opcode, and every operand other than the result once and in the order of the standard, each after one space: ids with a percent sign, literals in decimal, strings quoted (extension and instruction-set names bare or quoted as the kind says), enumerants by name, masks as flag names.", "quantifier": "every instruction of every accepted module", "why_tests_cant": "all opcodes with all operand values and counts", "anchors": ["src/spv/dis.rs", "src/spv/op.rs:def_op_display"]}
{"id": "C63", "title": "Enumerants print by their standard names", "statement": "Every execution model, addressing model, memory model, storage class, dimension, image format, rounding mode, linkage type, access qualifier, parameter attribute, built-in, capability, execution mode and decoration prints as the name the SPIR-V standard gives to its number, except exactly six names the crate spells differently (TesselationControl, TesselationEvaluation, OutputVerticies, PatchVerticies, FpRoundingMode, FpFastMathMode).", "quantifier": "every enumerant value", "why_tests_cant": "relates every value to the standard's tables", "anchors": ["src/spv/types.rs", "src/spv/dis.rs"]}
{"id": "C64", "title": "Exact text of control-flow chains", "statement": "The lines of a chain's text are, at four spaces per level: one line per block id, and for selections and loops an opening line with the header id, its control hints and branch weights, the nested chains, and a closing brace. Every line, also the last, ends in one line feed.", "quantifier": "every chain", "why_tests_cant": "all nestings", "anchors": ["src/spv/logical/control_flow.rs:ControlFlowChain::fmt_indent"]}
{"id": "C65", "title": "find_control_flow understands exactly the structured functions", "statement": "find_control_flow succeeds on a function exactly if its block ids are unique and, starting at the first block, its blocks (label, merge instruction, terminator) contain the lowering of a structured program: steps, selections with a merge block, loops with a merge block, conditional exits that leave or restart the innermost loop at the end of its body, and a final returning block, where no block of a construct is a point at which a surrounding construct continues. The returned chain is the one written down for that program, with every node, hint and weight in its place.", "quantifier": "all functions, all programs, all chains", "why_tests_cant": "Tests show a few functions being understood; a search that gives up on, or rearranges, some other nesting of loops and selections passes them all.", "anchors": ["src/spv/logical/control_flow.rs: find_control_flow, search_block, FlowList::merges, FlowList::innermost_loop"]}
{"id": "C66", "title": "Structured programs survive lowering", "statement": "Take any nesting of steps, selections, loops and loop exits in which every block occurs once and exits stand only at the end of a loop body (or of an arm there), lower it to blocks and put them into a function in any order with the first block first: find_control_flow returns a chain, and it is that program's chain.", "quantifier": "all programs of any size and nesting depth, all orders of the blocks, any other contents of the blocks", "why_tests_cant": "The nesting depth and the number of constructs are unbounded.", "anchors": ["src/spv/logical/control_flow.rs: find_control_flow, search_block"]}
{"id": "C67", "title": "Reader error messages name the kind of error", "statement": "description() of a reader error is one non-empty line of printable ASCII. Two errors have the same description exactly if they are the same kind of error; the values they carry are not shown. The sentence is the one that fits the kind: the listed sentence for a malformed binary, \"unknown\" and the name of the enumeration for an operand value outside it. Display writes exactly the description, whatever the formatting options.", "quantifier": "all reader errors with all payload values, all formatting options, all writers", "why_tests_cant": "A test compares a few messages; that no two of the kinds collide and that no payload leaks in needs all pairs and all payload values.", "anchors": ["src/spv/raw/mod.rs: ReadError, Display for ReadError, Error::description"]}
{"id": "C68", "title": "Printing into a failing writer stops at the failure and reports it", "statement": "Formatting a module, an instruction, a control-flow chain, a function along a chain or a reader error into any fmt::Write either writes the whole text, in order and nothing else, and returns Ok, or stops at the first write that fails and returns Err: what was written before is a beginning of the text and the writer is not used again. Into a String everything is written; a buffer of limited size receives exactly the part of the text that fits, and an error is returned exactly if that is not all of it. The function printer panics, after writing a text, exactly when its string form does.", "quantifier": "all modules, instructions, chains, functions, extended instruction printers and writers (any state, any pattern of failures), all formatting options (for single instructions: without width, precision or sign)", "why_tests_cant": "The failure can occur at any of the writes of a text of any length; tests print into Strings, which never fail.", "anchors": ["src/spv/dis.rs: def_op_display!, FormatArg, DisplayArg", "src/spv/raw/mod.rs: Display for RawModule", "src/spv/logical/control_flow.rs: ControlFlowChain::fmt_indent, ControlFlowFunctionPrinter::fmt_indent, fmt_block_indent", "src/glsl450/mod.rs: Display for Inst"]}
{"id": "C69", "title": "Formatting options", "statement": "Width, precision, fill and sign have no effect on how a module, a chain, a function or a reader error is written. For a single instruction one would expect a minimum width to pad the line; refuted: the width is applied to each id operand instead, so a line longer than the width still changes. The exact effect is: the result column and the name never change; every id operand is cut to the precision and filled to the width like a text, except in OpPhi's pairs; of the numbers only the width of a scalar type, the count of a vector or matrix type and the words of a constant are filled, signed and zero-padded like numbers; names, flags, strings and weights never change.", "quantifier": "all values, options and writers", "why_tests_cant": "Tests use {} only.", "anchors": ["src/spv/dis.rs: DisplayArg for T, FormatArg", "src/spv/types.rs: Display for OpId"]}
{"id": "C70", "title": "A rejected module is rejected with exactly the error of its first defect", "statement": "read_module(data, known) returns an error e exactly if data is a failing module with that error: the header, then the instructions in order, then within an instruction the opcode, the operands from left to right, the extended set's own verdict and finally superfluous words are examined, and the first defect determines the error and its payload (the offending word, opcode, word count, id or set name). Input that ends early is UnexpectedEndOfStream if the missing part starts at a word boundary and UnexpectedStreamAlignment otherwise. Every input either is a wire form of a module or fails with exactly one error.", "quantifier": "all byte sequences, all lists of known extended instruction sets, all errors with all payloads", "why_tests_cant": "There are unboundedly many malformed inputs with several defects at once; tests check a few with one defect each, and cannot show that no other error is ever reported.", "anchors": ["src/spv/raw/reader.rs: read_module, read_instruction, def_op_read!, CoreRead for OpExtInstImport and OpExtInst", "src/spv/raw/mod.rs: MemoryBlockRead impls, ReadError"]}
{"id": "C71", "title": "The exact trouble with a function that is not understood", "statement": "find_control_flow(f) returns error e exactly if e is the trouble met when f is read as a structured program from its entry: the first label that occurs twice; no blocks at all; a block that does not exist; a conditional branch without merge instruction that is not an exit of the innermost loop; a loop whose body does not lead back to its header; a selection one of whose arms does not lead to its merge block; an exit whose rest does not lead back to the header of the loop. Loop bodies are read before what follows the loop, the first arm before the second, the arms before what follows. It panics exactly if what is met first is a selection merge with an unconditional branch or a loop merge with a conditional branch. There is at most one such trouble, and the error names the block at fault.", "quantifier": "all functions with any blocks, reachable or not, all errors with all payloads", "why_tests_cant": "The tests only look at functions that are understood; there are unboundedly many others, with several faults at once and nested arbitrarily deep.", "anchors": ["src/spv/logical/control_flow.rs: find_control_flow, search_block, ControlFlowError"]}
{"id": "C72", "title": "Exactly when find_control_flow never returns", "statement": "find_control_flow recurses forever exactly on the functions with pairwise distinct labels whose reading as a structured program never ends: an endless succession of statements that are complete, or nesting that never ends. Every function is understood, has a trouble (C71) or is read forever, and only one of the three.", "quantifier": "all functions, all recursion depths", "why_tests_cant": "Non-termination cannot be observed by a test, and no finite set of tests rules it out.", "anchors": ["src/spv/logical/control_flow.rs: find_control_flow, search_block"]}
{"id": "C73", "title": "Equality of modules and results is exact", "statement": "Two raw modules compare equal with == exactly if their versions, generators and bounds are the same and their instructions are pairwise the same, extended instructions being compared by their types, ids and their own eq. If the eq of extended instructions is identity, so are == on raw modules, instructions, logical modules and function definitions. == on read errors, validation errors and control-flow chains is identity.", "quantifier": "all pairs of modules, instructions, errors and chains; all definitions of equality of extended instructions", "why_tests_cant": "assert_eq! in every test relies on it; a field or variant that is ignored only shows for a pair differing there and nowhere else.", "anchors": ["src/spv/raw/mod.rs: RawModule, Core, ReadError (derive PartialEq)", "src/spv/op.rs", "src/spv/types.rs", "src/spv/logical/mod.rs", "src/spv/logical/control_flow.rs: ControlFlowChain", "src/spv/mod.rs: ExtInstBox::eq"]}
{"id": "C74", "title": "Equality of extended instructions across sets", "statement": "A GLSL.std.450 instruction equals exactly the identical GLSL.std.450 instruction, and an instruction of another type only if that type's as_any presents itself as the identical GLSL instruction. Modules mixing built-in and user instructions are equal only if identical, provided user types compare by downcast and as_any returns the object itself. Equality of modules is reflexive, symmetric, transitive whenever equality of extended instructions is; a user's eq can make it asymmetric.", "quantifier": "all user instruction types with any eq and as_any, all instructions and modules", "why_tests_cant": "User types are an open set; no test enumerates them.", "anchors": ["src/glsl450/mod.rs: ExtInst for Inst", "src/spv/mod.rs: ExtInst, ExtInstBox"]}
{"id": "C75", "title": "Equal modules are interchangeable", "statement": "Equal raw modules are both accepted by validation, with equal logical modules, or both rejected with the same error. Logical modules obtained by validation are equal exactly if the instructions of the raw modules are, whatever the headers. Equal raw modules and equal functions print the same text if equal extended instructions do, and equal functions have the same control flow.", "quantifier": "all pairs of modules and functions, all equalities and texts of extended instructions", "why_tests_cant": "A statement about all pairs of inputs of three different passes.", "anchors": ["src/spv/logical/parser/parser.rs: validate", "src/spv/raw/mod.rs: Display for RawModule", "src/spv/logical/control_flow.rs: find_control_flow, ControlFlowFunctionPrinter"]}
{"id": "C76", "title": "Lines of the instructions that are not decoded", "statement": "Each of the 58 op structs that have a text but that no opcode is read into prints as one line: the result id right-aligned in the first fifteen columns, the name the standard gives its opcode, and its operands in the order and of the kinds the standard lists (ids with %, literals in decimal, enumerants and masks by name). The exception is OpCompositeConstruct, whose constituents are ids but print as plain numbers.", "quantifier": "every value of each of these structs whose result id is a 32-bit word", "why_tests_cant": "all field values of 58 structs; no test constructs any of them", "anchors": ["src/spv/op.rs:def_op_display!", "src/spv/dis.rs:def_op_display", "src/spv/types.rs:SamplerAddressingMode"]}
{"id": "C77", "title": "Undecoded instructions print faithfully and compare structurally", "statement": "Two of the instructions of C76 that print the same line are equal; none prints the line of an instruction the reader can produce; printing into any writer writes exactly that line or reports the writer's failure; == holds exactly between equal values.", "quantifier": "every pair of such instructions, every instruction of the reader, every writer", "why_tests_cant": "all pairs of values and all writers", "anchors": ["src/spv/op.rs", "src/spv/dis.rs:FormatArg"]}
{"id": "C78", "title": "The structured form does what the instructions do", "statement": "Take a module accepted by validation and one of its function definitions for which find_control_flow returns a chain. The function is written out in the module's instruction list. Executing that flat list from the OpFunction, instruction by instruction with jumps to the labels of the same function, and executing the chain, with each block standing for its label, its instructions and the decision at its end, produce the same complete executions. At every moment the instructions have done a beginning of what the chain does, and every beginning of what the chain does is reached.", "quantifier": "all modules, all functions in them, all executions: every sequence of labels passed, instructions executed and conditions decided, finished or not", "why_tests_cant": "The executions are unbounded, and the claim spans grouping into blocks and the search for control flow; a test compares the shape of one chain.", "anchors": ["src/spv/logical/parser/parser.rs: validate", "src/spv/logical/control_flow.rs: find_control_flow, ControlFlowChain"]}
{"id": "C79", "title": "From structured programs to bytes and back", "statement": "Write any module whose functions are the block form of structured programs (steps, selections, loops, conditional exits; every block once, in any order after the first) as bytes, in either byte order. Reading gives the module back, validation gives its sections and functions back, and find_control_flow gives for each function the chain of its program. The instructions of such a function execute exactly the program.", "quantifier": "all structured programs of any size and nesting, all block orders, all other contents of the module, both byte orders, all known instruction sets", "why_tests_cant": "Programs and modules are unbounded; the tests run five fixed binaries.", "anchors": ["src/spv/raw/reader.rs: read_module", "src/spv/logical/parser/parser.rs: validate", "src/spv/logical/control_flow.rs: find_control_flow"]}
{"id": "C80", "title": "How deep validation recurses", "statement": "Validation reads each list (a section of the module, parameters, blocks, code of a block, declarations, definitions) by a recursive function that calls itself once per item, with the reading of blocks and functions nested inside. For an accepted module, the number of its calls active at the same time is an explicit function of the lists in the result. For every module there is one number that decides whether a limit on active calls is enough; it is at most the number of instructions plus one. Below it nothing is returned; from it on the limit has no effect. No fixed limit is enough: for every n there is an accepted module of n+1 instructions that n active calls do not suffice for.", "quantifier": "all modules, accepted and rejected, all limits on the depth of the recursion", "why_tests_cant": "Modules are unbounded; a test can only see that some modules fit the stack of one machine.", "anchors": ["src/spv/logical/parser/parser.rs: read_many, read_rest, read_function_declaration, read_function_definition, read_basic_block, validate"]}
{"id": "C81", "title": "How deep the search for control flow recurses", "statement": "find_control_flow follows a function by recursion: one level for each statement of a sequence and one for each nesting. When it returns a chain, the depth of its recursion is an explicit function of the structured program the chain stands for; with that depth or more it returns the chain, with less it does not return. The depth is at most the number of blocks named in the chain. No fixed limit is enough: for every n there is a function of n+1 blocks that has a chain and needs more than depth n.", "quantifier": "all functions for which a chain is returned, all structured programs, all limits on the depth", "why_tests_cant": "Functions are unbounded; a test only sees that some functions fit the stack of one machine.", "anchors": ["src/spv/logical/control_flow.rs: find_control_flow, FlowNode, search_block"]}
{"id": "C82", "title": "How many calls the search for control flow takes", "statement": "When find_control_flow returns a chain, the number of recursive calls made is one for every block of the structured program plus one for the end of every sequence that does not end by leaving a loop. It is between the number of blocks named in the chain and three times that number. For a function whose blocks are those of a structured program, each once, it is therefore linear in the number of blocks. For other functions it can be exponential in the number of blocks.", "quantifier": "all functions for which a chain is returned, all structured programs", "why_tests_cant": "Cost is a statement about all sizes; timing five fixed modules says nothing about growth.", "anchors": ["src/spv/logical/control_flow.rs: find_control_flow, search_block"]}
{"id": "C83", "title": "How read_module talks to the extended instruction sets", "statement": "The sets passed to read_module are user code. Its methods are called in a fixed way: an import asks the given sets for their names in order until one fits and then duplicates that set, once; an extended instruction asks the duplicate made by the import it refers to, once, with the instruction number and the remaining words; nothing else calls a set, and nothing is called after the first error. The result and all side effects of the sets are exactly those of that conversation. On success the extended instructions of the module are the answers, in order; a module without imports leaves the sets alone; the reader panics only when the last call it made panicked; and if the answers do not depend on hidden state, the result is a function of names and answers alone.", "quantifier": "all byte sequences, all lists of sets, all implementations of the methods including stateful and panicking ones, all initial states", "why_tests_cant": "The implementations are open-ended; a mock set checks the calls for one module, not for every module and every behaviour of the set.", "anchors": ["src/spv/mod.rs: ExtInstSet", "src/spv/raw/reader.rs: read_module, read_instruction, OpExtInstImport::read_core, OpExtInst::read_core"]}
{"id": "C84", "title": "Which extended instruction sets matter", "statement": "The list of sets passed to read_module matters only through the first set of each name: lists that agree on those give the same result on every input, so with distinct names the order is irrelevant. A module that is accepted is accepted with the same result by any list that agrees on the imported names; in particular appending sets never changes an accepted result.", "quantifier": "all byte sequences, all lists of sets with arbitrary implementations", "why_tests_cant": "ranges over all inputs and all pairs of lists of user-defined sets", "anchors": ["src/spv/raw/reader.rs: read_module, OpExtInstImport::read_core", "src/spv/mod.rs: ExtInstSet"]}
{"id": "C85", "title": "Numbering of ids is irrelevant to control flow", "statement": "If the labels, merge blocks, continue targets, branch targets and conditions of a function are renamed by a map that keeps the mentioned blocks apart, find_control_flow returns the renamed result: the chain with renamed ids, the error with the renamed id, or no result at all in both cases, at every recursion depth. Nothing depends on the order or size of ids, nor on the contents of the blocks.", "quantifier": "every function definition, every renaming, every result", "why_tests_cant": "a relation between pairs of runs over all functions and all renamings", "anchors": ["src/spv/logical/control_flow.rs: find_control_flow, search_block, FlowNode"]}
{"id": "C86", "title": "Blocks that are not reached are irrelevant to control flow", "statement": "Only the first block has to be first: permuting the others and adding further blocks with new labels changes nothing about the result of find_control_flow, chain, error or divergence, unless an added block is the one reported as unknown. A chain that is returned depends only on the blocks it names: every function that starts with the same block and has these with the same merge and terminator has the same chain.", "quantifier": "every function definition, every permutation and extension of its blocks", "why_tests_cant": "a relation between pairs of runs over all functions", "anchors": ["src/spv/logical/control_flow.rs: find_control_flow, search_block"]}
{"id": "C87", "title": "Size of accepted input", "statement": "An accepted input is exactly 20 bytes of header plus four bytes for each word its instructions need (head word, one word per number, id or mask, and len/4+1 words per string; extended instructions add their number and own operands), every instruction needing fewer than 65536 words: no byte is skipped or used twice. Without extended instructions the size is a function of the module. The module never holds more instructions, operands and string bytes than the input has bytes.", "quantifier": "all byte sequences, all lists of sets", "why_tests_cant": "amplification and skipped bytes must be excluded for every input", "anchors": ["src/spv/raw/reader.rs: read_module, read_instruction"]}
{"id": "C88", "title": "Debug output determines the value", "statement": "Two raw modules, logical modules, functions, instructions, read errors, validation errors, control flow errors or chains have the same {:?} text exactly when they are the same value: in an assertion message or a log, different values never look alike. This holds for every table of printable characters the standard library may use. For modules it needs the Debug text of the user's extended instructions to be unambiguous before a closing parenthesis, which the one of GLSL.std.450 is; without that two different modules can look alike.", "quantifier": "all pairs of values, all tables of printable characters, all unambiguous Debug implementations of extended instructions", "why_tests_cant": "injectivity ranges over all pairs of values, with arbitrary strings that may contain quotes, commas and braces", "anchors": ["src/spv/mod.rs: ExtInstBox", "src/spv/types.rs", "src/spv/op.rs", "src/spv/raw/mod.rs: RawModule, ReadError", "src/spv/logical/mod.rs", "src/spv/logical/control_flow.rs: ControlFlowChain, ControlFlowError", "src/spv/logical/parser/parser.rs: ValidationError", "src/glsl450/mod.rs: Inst"]}
{"id": "C89", "title": "What Debug output shows", "statement": "The {:?} text of an instruction is the standard's name of its opcode around a structure of that name whose fields have the published names and show, from left to right, exactly the ids, literals and strings of the instruction in the order of the standard's operands; only enumerants and masks are shown by name, the standard's except for a short list of respellings. The id an instruction defines is shown as a ResultId and every other id as an OpId. A raw module shows its header and all its instructions; a logical module shows the same instruction structures in the same order. A string is shown as a Rust string literal that denotes exactly that string. An error shows the name of its case followed by its payload in parentheses, and a chain shows every block, branch, hint and weight in it.", "quantifier": "all instructions, modules, errors and chains, all strings of Unicode scalar values, all tables of printable characters", "why_tests_cant": "must hold for every opcode, operand combination and character", "anchors": ["src/spv/op.rs", "src/spv/types.rs", "src/spv/raw/mod.rs: Core"]}
{"id": "C90", "title": "Validation copies the user's instructions once each", "statement": "Validating a module calls the user's Clone exactly once for each extended instruction it gets to (all of them if the module is accepted, otherwise those before the instruction the error points at), in the order of the module. The result is the one of the module with the copies in place of the originals. The verdict and the error do not depend on what the copies are. Only a copy that panics makes validation panic, and then no further copies are made. If copies equal their originals, the result is the one of validation without side effects.", "quantifier": "all raw modules, all implementations of Clone with arbitrary side effects, panics and results, all initial states of the world", "why_tests_cant": "ranges over all user implementations of Clone, all modules and all points at which a copy can panic", "anchors": ["src/spv/logical/parser/parser.rs: validate, read_code", "src/spv/mod.rs: ExtInst, ExtInstClone, ExtInstBox"]}
{"id": "C91", "title": "Structs for instructions that are neither decoded nor printed", "statement": "For each of the 143 instructions that only have a struct, == holds exactly for identical values, and no two values, of the same or of different structs, have the same {:?} text. The text is the standard's name of the instruction around the standard's operands in the standard's order, each shown as an id, result id, scope, semantics, literal, group operation, image operands or list, and every combination of such operands is the text of some value: the arguments of the constructor are shown in the order in which they are declared. Exceptions: two image instructions are misnamed, two atomic instructions have one operand too many, and the local sizes of OpEnqueueKernel come in pairs. The structs that can be printed but not decoded show their fields by name in the order of the operands. The two kernel types that no struct contains (enqueue flags, profiling info) are compared and shown like the other types of their kind. Every instruction of SPIR-V 1.0 has a struct, except OpSpecConstantOp.", "quantifier": "all values of all these structs, all operand values, all instructions of the standard", "why_tests_cant": "ranges over all values of 201 structs and all pairs of them", "anchors": ["src/spv/op.rs", "src/spv/types.rs: ImageOperands, ScopeId, MemorySemanticsId, GroupOperation, KernelEnqueueFlags, KernelProfilingInfo"]}
{"id": "C92", "title": "Debug output over several lines", "statement": "Formatting any value of the crate with {:#?} gives one line per leaf, bracket and opening, indented by four spaces per open bracket, with a comma after every item (whether also after the last one is up to the release of Rust). Taking out the line breaks, the indentation and the trailing commas gives exactly the text of {:?}, whatever the strings contain. Two values print alike only if they are equal, if the same holds for the extended instructions.", "quantifier": "every module, instruction, struct, error and chain, every derived Debug of extended instructions, every table of printable characters, with and without trailing commas", "why_tests_cant": "all values, nestings and strings; several releases of the standard library", "anchors": ["src/spv/raw/mod.rs:RawModule", "src/spv/logical/mod.rs:LogicalModule", "src/spv/mod.rs:ExtInstBox", "src/spv/op.rs", "src/spv/types.rs"]}
{"id": "C93", "title": "Control flow and the standard's rules for structured functions", "statement": "Of the functions that find_control_flow reads back as the program they were written from, and whose loops can be left, exactly those obey the SPIR-V standard's rules on merge blocks, back edges and loop headers whose program does not start with a loop, has no arm, loop body or rest that ends with a construct, and starts loops again only at their end; they also obey the rules on entering and leaving constructs, and those on continue targets if the declared ones begin the end of the body; their chains contain no Continue. The converse fails: exchanging the two targets of conditional branches does not touch the rules, but turns a function that is understood into one that is refused, and a function that is understood returns in one place only, so that one with an early return is refused although it obeys all rules.", "quantifier": "all structured programs, all functions written from them, all executions; all functions for the rules under negation and for the single return", "why_tests_cant": "dominance and post-dominance range over all executions, of unbounded length; all programs of any nesting", "anchors": ["src/spv/logical/control_flow.rs: find_control_flow, search_block, FlowList::merges", "src/spv/op.rs: OpLoopMerge, OpSelectionMerge"]}
{"id": "C94", "title": "Reading operands in user code", "statement": "An extended instruction set, or a MemoryBlockRead of the user, gets the operand words of an instruction as a MemoryBlock. Whatever its code does, it is handed the words in order, each once; a word is denied, with UnexpectedEndOfInstruction, exactly if all have been handed out; remaining() is the number of words not handed out and end() says whether there are none; the block it returns holds exactly the words not handed out. So in an accepted module the words of every extended instruction are those handed to the code of the imported set until it finished with that instruction, and if the code of all sets returns, read_module returns. All readers of the crate (operands, optional operands, lists, instructions) are like such code. Reading a Vec of items of at least four bytes reads items from all words left, passes on the first failure, and never returns if an item takes no words; for smaller items it always panics.", "quantifier": "all user code, all operand words, all byte strings, all item types", "why_tests_cant": "ranges over all code that users may write against the interface", "anchors": ["src/spv/raw/mod.rs: MemoryBlock, MemoryBlockRead", "src/spv/mod.rs: ExtInstSet", "src/spv/raw/reader.rs: read_module"]}
{"id": "C95", "title": "Debug output with formatting options", "statement": "Formatting any value of the crate with {:?} or {:#?} and a width, alignment, fill character, sign, zero flag or precision changes only the numbers and booleans in it: numbers are aligned to the right (or filled with zeros after the sign), booleans are cut off at the precision and aligned to the left, unless told otherwise; names, brackets, line breaks and string literals stay as they are. If the fill character is a blank and the precision, if any, is at least five, the text of {:?} can be got back by taking out blanks, line breaks, plus signs, leading zeros and trailing commas outside of string literals, so two values are shown alike only if they are equal (if the same holds for the extended instructions). A precision of zero makes different values look alike, and so can a digit as fill character.", "quantifier": "every module, instruction, struct, error and chain, every set of options, every derived Debug of extended instructions, every table of printable characters", "why_tests_cant": "all values, nestings, strings, widths and alignments", "anchors": ["src/spv/raw/mod.rs:RawModule", "src/spv/logical/mod.rs:LogicalModule", "src/spv/mod.rs:ExtInstBox", "src/spv/op.rs", "src/spv/types.rs"]}
{"id": "C96", "title": "Debug output into a failing writer", "statement": "Formatting any value of the crate with {:?} or {:#?} and any options into any writer either writes exactly the text of C95, in order, and reports success, or stops at the first write that fails, having written a beginning of the text, and reports that failure. Into a String it always succeeds; a buffer of limited size gets the beginning of the text and an error is reported exactly if that is not all of it. If the Debug implementation of an extended instruction panics, a beginning of the text has been written and the panic is passed on.", "quantifier": "all values, all writers, all options, all Debug implementations of extended instructions that behave like this themselves", "why_tests_cant": "every point at which a writer may fail, for every value", "anchors": ["src/spv/raw/mod.rs:RawModule", "src/spv/logical/mod.rs:LogicalModule", "src/spv/mod.rs:ExtInstBox", "src/spv/op.rs", "src/spv/types.rs"]}
{"id": "C97", "title": "Printing a chain needs little more stack than finding it", "statement": "Printing a chain, on its own or with the code of its function, recurses exactly as deeply as the chain is nested, and the u32 that counts the indentation does not overflow as long as fewer than 2^32 calls are active; with enough stack it overflows, and a build with overflow checks panics, exactly if there are 2^32 or more selections and loops around one another. If finding a chain took no more than n nested calls, printing it takes at most 2n-1, and at most twice the number of blocks it names minus one; both bounds are met at every depth. A function printer that panics, because a block is missing or is there twice, does not recurse more deeply than that.", "quantifier": "all chains, all functions, all limits on the depth below 2^32", "why_tests_cant": "nesting is unbounded, and the relation must hold for every function", "anchors": ["src/spv/logical/control_flow.rs:ControlFlowChain::fmt_indent", "src/spv/logical/control_flow.rs:ControlFlowFunctionPrinter::fmt_indent", "src/spv/logical/control_flow.rs:search_block"]}
{"id": "C98", "title": "Validation takes time linear in the module", "statement": "Validating a module looks at its instructions, one look at a time and never more than 3n+10 looks for n instructions, whether the module is accepted or not. For an accepted module the number of looks is exactly: for each list of the module its length plus one, one for the memory model, the head (OpFunction, parameters and what follows) of each declaration, and the head and blocks of each definition, where a block takes its code plus four looks; the head of the first definition is looked at twice, since it might have been a declaration.", "quantifier": "all modules of all extended instruction sets", "why_tests_cant": "a validator that goes back quadratically on some rare layout passes all tests; the bound is over all modules", "anchors": ["src/spv/logical/parser/parser.rs:validate", "src/spv/logical/parser/parser.rs:read_many", "src/spv/logical/parser/parser.rs:read_function_declaration", "src/spv/logical/parser/parser.rs:OpSlice::first"]}
{"id": "C99", "title": "The disassembly is at most 7.75 times as long as its input", "statement": "The printed text of an accepted module has at most 31 bytes for each 4-byte word of the input, plus the bytes the user's own extended instructions print. With the extended set of the crate nothing has to be added. The factor is the best possible: for every n there is an accepted input of 20+8n bytes whose text is only 84 bytes shorter than 31 bytes per word.", "quantifier": "all byte strings that are accepted, all known extended sets and their printers", "why_tests_cant": "tests print a few modules; one operand printed at a length that depends on its value or printed twice can make the text of some input arbitrarily larger than the input", "anchors": ["src/spv/raw/mod.rs:RawModule (Display)", "src/spv/dis.rs:format_arg", "src/spv/dis.rs:def_op_display", "src/spv/op.rs", "src/spv/types.rs", "src/spv/raw/reader.rs:read_module"]}
{"id": "C100", "title": "Debug output with hexadecimal numbers shows every value exactly", "statement": "{:x?} and {:X?}, on one line or over several ({:#x?}), with any width, alignment, fill, sign, zeros and precision, write exactly the text of {:?} or {:#?} with every number replaced by its shortest hexadecimal numeral in small or capital letters (after 0x over several lines), fitted to the options as std::fmt says; booleans are fitted as text, strings and names are not changed. This holds for every writer, failing ones included, and a panic of a user's instruction is passed on after a beginning of that text. No name of the crate can be taken for a hexadecimal number. So if blanks are the fill and booleans are not cut off, the text of {:?} can be computed from the hexadecimal one, and two values of the crate's types have the same hexadecimal text exactly if they are equal.", "quantifier": "all values of the types of the crate, all formatting options, all writers, all extended instruction sets whose names are identifiers but not hexadecimal numbers", "why_tests_cant": "tests show a few values; a variant named like a hexadecimal number, or a zero filled in at the wrong place, would make two values look alike only with rare options and numbers", "anchors": ["src/spv/types.rs:OpId (derive Debug)", "src/spv/raw/mod.rs:RawModule (derive Debug)", "src/spv/op.rs:derive(Debug)", "src/spv/logical/mod.rs:LogicalModule (derive Debug)", "src/spv/logical/control_flow.rs:ControlFlowChain (derive Debug)", "src/spv/raw/mod.rs:ReadError (derive Debug)"]}
{"id": "C101", "title": "Reading reserves little memory in advance", "statement": "Whatever the bytes given to read_module, accepted or refused, the memory it reserves before it has read the words it is for (the room for the words of an instruction, for strings and for lists of operands) is together at most three times the length of the input plus 262068 bytes, and nothing if there is no word after the header. There are inputs of any length that reach this, the shortest of 24 bytes. For an accepted input the reservations are exactly: for each instruction four bytes for each word of its word count, sixteen for each string, and for the list it ends with four bytes for each member (sixteen for each argument of a phi, twice what it needs); at most three times the length of the instructions, which is reached as well.", "quantifier": "all byte sequences, all lists of extended instruction sets (what a set itself reserves is not counted)", "why_tests_cant": "a test shows that one input is read with little memory; the bound is about the worst of all inputs, malformed ones included", "anchors": ["src/spv/raw/reader.rs:read_instruction", "src/spv/raw/mod.rs:MemoryBlockRead for Vec<T>", "src/spv/raw/mod.rs:MemoryBlockRead for LitString", "src/spv/raw/reader.rs:read_module"]}
{"id": "C102", "title": "What the printers have written when something ends them", "statement": "The Display implementation of a user's extended instruction may return an error or panic after writing part of its text. Then an instruction, a module and a function along a chain have written exactly the text up to that place, and nothing after it, and end in the same way: a module its header lines, the lines of the instructions before the first that does not end well, and of this one what precedes and what it wrote itself. The function printer also panics on reaching a block that the function does not have or has twice, having written exactly the lines up to there and nothing of that block; with every block there once and instructions that end well it writes the whole text (C60). If the writer fails first, that ends the printing as in C68. Into a String all of this text is written; a buffer of limited size gets the part that fits.", "quantifier": "all modules, functions, chains and instructions, all Display implementations of the extended instructions with any texts and ends, all writers, all formatting options (for single instructions: without width, precision or sign)", "why_tests_cant": "the failing instruction can stand anywhere in a module or function of any size and nesting; tests use implementations that do not fail", "anchors": ["src/spv/dis.rs: def_op_display!, FormatArg, DisplayArg", "src/spv/raw/mod.rs: Display for RawModule", "src/spv/logical/control_flow.rs: ControlFlowFunctionPrinter::fmt_indent, fmt_block_indent"]}
{"id": "C103", "title": "How much find_control_flow does besides calling itself", "statement": "find_control_flow looks through the constructs around a block to see where it ends, and puts the parts of a chain together by moving them into a longer list. For a structured program the number of recursive calls, of constructs looked at and of parts moved are functions of the program alone: all constructs around each block once, one at the end of a sequence, for an exit also those up to its loop; and for each statement itself and all that follow it in its sequence are moved. With k blocks in the chain that is at most k(k-1) looks and (k-1)(k+2)/2 moves. Both are quadratic for some programs: the moves for blocks that just follow one another, where the bound is met, the looks for selections inside of one another. So the time is not proportional to the number of blocks even where the number of calls is (C82). For any function, however the search ends, the looks are at most twice the depth times the calls, and the moves at most c(c+1)/2 for c calls.", "quantifier": "all functions, all structured programs, all recursion depths, all outcomes", "why_tests_cant": "the bounds are claims about functions of every size and nesting; a test measures a few", "anchors": ["src/spv/logical/control_flow.rs: find_control_flow, search_block, FlowNode::merges, FlowNode::innermost_loop, ControlFlowChain::block"]}
{"id": "C104", "title": "What the Debug format has written when an extended instruction ends it", "statement": "The Debug implementation of a user's extended instruction may return an error or panic after writing part of its text. Then {:?} and {:#?} of any value that contains it have written exactly the text up to that place and nothing after it, and end in the same way: the pieces of the text in order, in several lines each line preceded by four blanks for each level, the instruction's own lines included; blanks are written only with the first character of a line. The first instruction that does not end well decides how the printing ends. If all end well it is the whole text of C88, C92, C95 and C100. If the writer fails first, that ends the printing as in C96.", "quantifier": "all values with a derived Debug, all Debug implementations of the extended instructions with any texts and ends, all writers, all formatting options, decimal and hexadecimal, one line and several lines", "why_tests_cant": "the failing instruction can stand anywhere in a value of any size and nesting and its text may have any lines; tests use implementations that do not fail", "anchors": ["src/spv/mod.rs: ExtInstBox", "src/spv/raw/mod.rs: RawModule (derive Debug)", "src/spv/op.rs: OpExtInst (derive Debug)"]}
{"id": "C105", "title": "Copying modules copies the user's instructions once each", "statement": "Cloning an instruction, a raw module, a function or a logical module calls the user's Clone exactly once for each extended instruction in it, in order. The result is the value with the copies in place of the originals and everything else unchanged. It panics exactly if one of these calls panics, and then no further calls are made. If copies equal their originals, so does the clone of everything else.", "quantifier": "all instructions, raw modules, functions and logical modules, also ones that validation would not produce; all implementations of Clone with arbitrary side effects, panics and results", "why_tests_cant": "the extended instructions may stand anywhere in a module of any size, and the user's Clone may do anything", "anchors": ["src/spv/mod.rs: ExtInstClone, Clone for Box<ExtInst>, ExtInstBox", "src/spv/raw/mod.rs: RawModule, Core (derive Clone)", "src/spv/logical/mod.rs: LogicalModule, FunctionDefinition, BasicBlock, GroupCode (derive Clone)"]}
{"id": "C106", "title": "Which of the user's comparisons == makes", "statement": "Comparing two instructions, raw modules, functions or logical modules with == goes through their parts in order and stops at the first difference. The user's eq is called only for a pair of extended instructions with the same type and ids that stand at the same place, after everything before them was found equal; headers of modules, and the lengths of lists, are compared before what is in the lists. So the first extended instructions of both sides are compared, then the second ones and so on, each at most once, and none after the user's eq said no or panicked. A panic of the user's eq is the only panic. The answer is yes exactly if everything but the payloads of extended instructions is the same and the user's eq said yes to all of them. With an eq without side effects it is the equality of C73.", "quantifier": "all pairs of instructions, raw modules, functions and logical modules; all implementations of eq with arbitrary side effects, panics and answers", "why_tests_cant": "the modules may have any size and differ anywhere, and the user's eq may do anything", "anchors": ["src/spv/mod.rs: ExtInst::eq, PartialEq for ExtInstBox", "src/spv/raw/mod.rs: RawModule, Core (derive PartialEq)", "src/spv/logical/mod.rs: LogicalModule, FunctionDefinition, BasicBlock, GroupCode (derive PartialEq)"]}
{"id": "C107", "title": "How long control flow prints", "statement": "The text of a chain found by find_control_flow that names n blocks (counting every mention) has at most 4n - 5 lines, one line if n is 1, and at most 8n^2 + 95n bytes; there are functions for every n with exactly that many lines and at least 8n^2 - 20n bytes, so neither factor can be lowered. Any other chain with p blocks, selections, loops, breaks and continues prints at most 6p^2 + 113p bytes, and there are chains with at least 6p^2 - 6p. A found chain has fewer than 2n such parts. The function printer adds to the structure (at most 6p^2 + 96p bytes) what the named blocks print on their own and the indentation of their lines.", "quantifier": "all function definitions for which find_control_flow succeeds; all chains; all extended instruction texts; all numbers in 32 bits", "why_tests_cant": "a bound on every chain of every shape and depth, with families that meet it at every size", "anchors": ["src/spv/logical/control_flow.rs: impl Display for ControlFlowChain, ControlFlowChain::fmt_indent, ControlFlowFunctionPrinter"]}
{"id": "C108", "title": "A chain says exactly what find_control_flow looks at", "statement": "If find_control_flow returns a chain for a function, another function gets the same chain exactly when its labels are distinct, it begins with the same block and, for every identifier the chain names, it has a block with the same branch instruction, targets, weights, merge block and hints. Conditions, continue targets, the instructions in blocks, blocks the chain does not name, the order of the blocks after the first, parameters, the function's type and the extended instruction set do not matter. Whatever the answer is, an error, a panic or no answer within the recursion depth included, it is the same for functions whose blocks in order have the same labels and those same parts.", "quantifier": "all pairs of function definitions, also over different extended instruction sets; all chains; all recursion depths", "why_tests_cant": "two functions can differ in unboundedly many ways that must not matter, and any difference that matters must show in the chain", "anchors": ["src/spv/logical/control_flow.rs: find_control_flow, search_block"]}
{"id": "C109", "title": "Default flag operands are the ones without flags", "statement": "MemoryAccess::default(), FunctionControl::default(), LoopControl::default() and SelectionControl::default() are what the reader makes of the word 0, and of exactly those words it accepts that have none of the known flags set; each is the only value of its type that displays as None, and a value == default exactly when it is the default.", "quantifier": "all mask words and following words; all values of the four types", "why_tests_cant": "the equivalences range over every 32-bit mask and every value", "anchors": ["src/spv/types.rs: derive(Default) on MemoryAccess, FunctionControl, LoopControl, SelectionControl", "src/spv/raw/mod.rs: MemoryBlockRead for these types"]}
{"id": "C110", "title": "How deep find_control_flow goes in terms of the function's blocks", "statement": "If find_control_flow finds a chain for a function of n blocks, its recursion is never more than n(n-1)/2 + 1 levels deep. For every n there is a function of n blocks that has a chain and needs that many levels, so the stack it takes is not linear in the size of the function.", "quantifier": "all function definitions with a chain; all numbers of blocks; all recursion depths", "why_tests_cant": "the bound is over every function of every size, and what is needed grows with the square of the size", "anchors": ["src/spv/logical/control_flow.rs: find_control_flow, search_block"]}
{"id": "C111", "title": "A construct does not contain the block that starts it", "statement": "In a chain found by find_control_flow, no loop contains its header block again, and no selection between two arms contains its block again in either arm, however often blocks are repeated elsewhere in the chain. So the loops and two-armed selections around one another are at most as many as the function has merge instructions, and that number is reached. A selection that stands for a conditional exit from a loop can contain its block again.", "quantifier": "all function definitions with a chain; every loop and selection anywhere in the chain", "why_tests_cant": "chains of unstructured functions repeat blocks up to exponentially often, so containment has to be excluded for every function and every nesting", "anchors": ["src/spv/logical/control_flow.rs: find_control_flow, search_block, ControlFlowChain"]}
{"id": "C112", "title": "How large a chain can be in terms of the function's blocks", "statement": "A chain found by find_control_flow for a function of n blocks names at most 2^(n-1) blocks, repetitions counted, and finding it takes at most 3*2^(n-1) - 2 recursive calls. For every n there is a function of n blocks for which both numbers are reached.", "quantifier": "all function definitions with a chain; all numbers of blocks", "why_tests_cant": "the bound is over every function of every size, and the extreme functions take exponential time", "anchors": ["src/spv/logical/control_flow.rs: find_control_flow, search_block"]}
{"id": "C113", "title": "How much find_control_flow does, however it ends", "statement": "For a function of n blocks, find_control_flow makes at most 6*2^n - 3 recursive calls for each level of its stack, whether it returns a chain, returns an error, panics or runs out of stack. If it returns or panics at all it has made at most (n(n+1)/2+1)(6*2^n-3) calls. For every n there is a function of n blocks for which it makes 3*2^n - 2 calls and then returns an error, twice the calls of the dearest function of n blocks that has a chain.", "quantifier": "all function definitions, with a chain or without; all numbers of blocks; all limits on the stack", "why_tests_cant": "the bound is over every function of every size, including those that are refused or never end, and the extreme ones take exponential time", "anchors": ["src/spv/logical/control_flow.rs: find_control_flow, search_block"]}
{"id": "C114", "title": "On structured functions find_control_flow comes to an end", "statement": "Let a function obey the structured control-flow rules of the SPIR-V standard about merge blocks and constructs, let every merge block declared by a reachable block be reachable, and let no loop start again from a block that comes after the loop. Then find_control_flow returns (a chain or an error) or panics with a stack of at most one frame per block and one more, gives the same result however much more stack there is, and makes at most (n+1)(6*2^n-3) calls for n blocks. The one frame more is needed. The standard's rules alone do not suffice: a function that obeys them all, with an endless loop whose unreachable merge block branches to itself, or with a loop whose merge block is its continue target, makes the search recurse without end.", "quantifier": "all function definitions that obey the rules, of any size; all limits on the stack", "why_tests_cant": "the functions range over all graphs that satisfy the dominance rules, and a search that never ends cannot be told from a long one by running it", "anchors": ["src/spv/logical/control_flow.rs: find_control_flow, search_block"]}
{"id": "C115", "title": "Which structured functions find_control_flow understands", "statement": "Let a function obey the structured control-flow rules of the SPIR-V standard about merge blocks and constructs, let every merge block declared by a reachable block be reachable, and let no loop start again from a block that comes after the loop. Then find_control_flow returns a chain if and only if the function has a block, its labels are distinct, and it is simple: its reachable branches go to blocks that exist; a selection starts with a conditional branch and a loop with an unconditional one; a block that returns is in no construct; a conditional branch that does not start a selection is directly in a loop and its second target is the merge block of this loop; every construct is left to its own merge block only, from a block that is in no further construct inside it, and a loop is left only by the second target of a conditional branch. Obeying the rules alone is not enough: a loop with a break inside a selection obeys them all and is rejected.", "quantifier": "all function definitions that obey the rules, of any size and nesting", "why_tests_cant": "the functions range over all graphs that satisfy the dominance rules, and both acceptance of all simple ones and rejection of all others are claimed", "anchors": ["src/spv/logical/control_flow.rs: find_control_flow, search_block"]}
{"id": "C116", "title": "How often the chain of a structured function names a block", "statement": "Let a function obey the structured control-flow rules of the SPIR-V standard about merge blocks and constructs, let every merge block declared by a reachable block be reachable, and let no loop start again from a block that comes after the loop. If find_control_flow returns a chain, the chain names the first block once, a merge block as often as the block that declares it, and every other block as often as, taken together over all branches to it other than back to the start of a loop, the blocks with these branches. It names no block twice if and only if no block except merge blocks is the target of two such branches; then the chain names at most as many blocks as the function has, n, and finding it takes at most 3n-2 calls. Obeying the rules does not keep the chain small: for every k there is such a function of 4k+1 blocks whose chain names a block 2^k times.", "quantifier": "all function definitions that obey the rules and have a chain, all their blocks; for the growth, every k", "why_tests_cant": "the counts are claimed for every block of every graph that satisfies the dominance rules, and the growth for every size", "anchors": ["src/spv/logical/control_flow.rs: find_control_flow, search_block"]}
{"id": "C117", "title": "Structured graphs are structured programs", "statement": "Take the functions with distinct labels and at least one block, all of whose blocks can be reached, that obey the structured control-flow rules of the SPIR-V standard about merge blocks and constructs, whose merge blocks can be reached, whose loops do not start again from after the loop, whose constructs are left in the simple ways of C115, and in which branches other than back to the start of a loop come together at merge blocks only. These are exactly the functions written from a program of steps, selections, loops and exits at the end of loops, where every block is used once, loops can be left, loops start again only at their end, no construct stands at the end of a sequence inside another, and the program does not start with a loop. A function is written from one program at most. The last condition on branches is needed: a selection whose arms share a block obeys the rules and is understood, but is not written from any program.", "quantifier": "all function definitions; all programs, of any size and nesting", "why_tests_cant": "it is an equivalence between all graphs that satisfy the dominance rules and all programs", "anchors": ["src/spv/logical/control_flow.rs: find_control_flow, search_block"]}
{"id": "C118", "title": "Results do not depend on the random seeds of hash maps", "statement": "Ids are sound keys of hash maps: two ids are equal exactly when every hasher, from every state, treats them alike, and this holds for OpId and for BlockId. In a hash table with any hash function, however bad, and any policy of enlarging, a lookup after any sequence of insertions returns the value inserted last under an equal key, and each insertion returns the value that was there before. As a consequence the result of reading a module, and the control flow found for a function, are the same for every hash function and every policy, so a process seeded differently gives the same answers.", "quantifier": "all ids; all hashers, enlarging policies and sequences of insertions; all byte strings, known sets and function definitions", "why_tests_cant": "HashMap::new seeds its hasher at random in each process, and a test run sees one seed", "anchors": ["src/spv/types.rs: OpId", "src/spv/logical/control_flow.rs: BlockId, BlockMap, find_control_flow, search_block", "src/spv/raw/reader.rs: read_module, OpExtInstImport::read_core, OpExtInst::read_core"]}
{"id": "C119", "title": "The reader drops every object it owns exactly once", "statement": "read_module takes the extended instruction sets by value, makes duplicates of them and receives extended instructions from them; all of these are objects of the user and may implement Drop. However read_module ends, with a module, an error or a panic of a set, it first makes the calls of C83 and only then drops anything, so no object is used after it was dropped. It drops every duplicate that was made exactly once, in some order, and after them the given sets, each once and in their order. If it succeeds it drops no extended instruction, and those it received are the ones in the module; if it fails it drops every one it received exactly once. Drops have no influence on the result. That duplicates are dropped in the order of their imports is refuted: the order depends on the seed of the hash map.", "quantifier": "all byte sequences, all lists of sets, all implementations of the methods and of Drop that do not panic in Drop, all initial states, all hash functions", "why_tests_cant": "a test sees the drops for one input and one way to fail", "anchors": ["src/spv/raw/reader.rs: read_module, read_instruction, OpExtInstImport::read_core, OpExtInst::read_core", "src/spv/mod.rs: ExtInstSet, ExtInst, ExtInstBox"]}
{"id": "C120", "title": "Validation drops every extended instruction it owns exactly once", "statement": "validate takes the module by value and copies the extended instructions in it, which are objects of the user and may implement Drop. However it ends, with a logical module, an error or a panic of a copy, it first makes the copies of C90 and only then drops anything, so nothing is copied after it was dropped. The extended instructions of the given module are dropped last, each exactly once and in the order of the module. On success no copy is dropped, and the copies are the extended instructions of the returned module; on failure every copy that was made is dropped exactly once, before the originals. Drops have no influence on the result.", "quantifier": "all modules, all implementations of Clone and of Drop that do not panic in Drop, all initial states", "why_tests_cant": "validation can fail at every instruction, and a copy can panic at every extended instruction; a test sees a few", "anchors": ["src/spv/logical/parser/parser.rs: validate, read_many, read_code, read_basic_block, read_function_definition", "src/spv/mod.rs: ExtInstBox, ExtInstClone"]}
{"id": "C121", "title": "Cutting a block in two cuts it in the control flow", "statement": "Take a function and one of its blocks that does not start a loop, and cut the block in two: the first part keeps the label and some of the instructions and branches to the second part, which has a label used nowhere else, the other instructions, the merge instruction and the branch. find_control_flow then gives the same answer as before with the two labels in place of one: where the chain named the block there are the two blocks in a row, where a selection started at the block the first part stands before a selection that starts at the second part, and everything else is the same; an error about the branch of the block is now one about the second part, other errors and panics are the same; and it does not return if it did not return before. For the first block of a loop this does not hold: a loop that starts again early is no longer understood. If the function is in a file that is read and accepted, and the new label fits into a word, there is such a file with the two blocks in place of the one and everything else the same. The other way, in a file with the two blocks they can be joined again. Whether or not the function is understood, and for first blocks of loops as well, the executions are the same with the two parts in place of the block; on the way it is the same, or the first part has been executed and the second is next; the same blocks are reached, and the second part if the block was; and there is one more label, used once; what an execution must have come through to get to a block is the same, the second part taking its place after the first. If the function obeys the standard's rules for structured control flow, it still does with a block cut that does not start a loop, and only then if the new label was no loop's continue target; and with the first block of a loop cut it never does, unless the loop is not reached.", "quantifier": "all functions, understood or not, all blocks that do not start a loop, all ways to divide the instructions, all new labels", "why_tests_cant": "relates the answers for all pairs of such functions, whatever the shape and the place of the block in it", "anchors": ["src/spv/logical/control_flow.rs: find_control_flow, search_block, ControlFlowChain::block"]}
{"id": "C122", "title": "Inlining a function inlines its control flow", "statement": "Take a function, one of its blocks that does not start a loop, and a second function whose control flow is understood and that shares no label with the first. Inline the second at the block: the block is cut in two, the first part branches to the first block of the second function, and the blocks of that function that returned branch to the second part, which has a label used nowhere else. find_control_flow then gives the same answer as for the first function alone, with the chain of the second function between the two parts of the block: where the chain named the block there are the first part, the chain and the second part in a row, where a selection started at the block the first part and the chain stand before a selection that starts at the second part, and everything else is the same; an error about the branch of the block is now one about the second part, other errors and panics are the same; and it does not return if it did not return before. The instructions in the blocks do not matter. For the first block of a loop this does not hold. Whether or not the functions are understood, and for first blocks of loops as well, the executions are those of the first function with, wherever the block was executed, its first part, an execution of the second function (any one, each time) and its second part in its place; and what can have been executed at some moment is of that kind or ends within the second function or right after it. If both functions are in a file that is read and accepted and the new label fits into 32 bits, there is such a file with the inlined function in place of the first one. The other way, what was inlined can be taken out of a file again. The labels are those of both functions and the new one, and the blocks that are reached are known exactly: those of the first function that can be reached without passing the block, all of its reached blocks if the inlined function can return, and, if the block is reached, those the inlined function reaches and, if it can return, the second part of the block. So if both functions have different labels and all the blocks they reach, the function with the inlined one has too, and inlining can go on. If the inlined function can return, what an execution must have come through to get to a block is known too: between two blocks of the same function it is as before, on the way into the inlined function it is what leads to the block with the call, and a block of the inlined function must be come through on the way to another block of the first exactly if the block with the call must and every execution of the inlined function executes it.", "quantifier": "all functions, understood or not, all blocks that do not start a loop, all second functions that are understood, wherever the block is (inside of loops and selections or not), all new labels", "why_tests_cant": "relates the answers for all such triples of functions, whatever their shapes", "anchors": ["src/spv/logical/control_flow.rs: find_control_flow, search_block, ControlFlowChain::block"]}
{"id": "C123", "title": "Exchanging the arms of selections exchanges them in the control flow", "statement": "Take any blocks of a function that start a selection, and let their conditional branches go the other way (true and false label exchanged, and the branch weights, on any condition). find_control_flow understands the new function if and only if it understands the old one, and the chain is the same with the two arms and the two weights exchanged in the selections at these blocks. For functions that are not understood the order of the arms matters: find_control_flow may return an error for one and not return for the other. For conditional branches that leave a loop this does not hold, since only a false label can leave a loop. If the function is in a file that is read and accepted, and the branches keep their conditions and the blocks their instructions, there is such a file with the arms exchanged and everything else the same. Whether or not the function is understood, its executions, complete or on the way, are those of the old one in which these blocks decide the other way, and the same blocks are reached. It has the same dominators and post-dominators, and obeys the standard's rules for structured control flow if and only if the old one does, as well as the conditions of C114.", "quantifier": "all functions, all sets of blocks that start selections, all chains", "why_tests_cant": "relates the answers for all pairs of functions and for any set of blocks", "anchors": ["src/spv/logical/control_flow.rs: find_control_flow, search_block"]}
{"id": "C124", "title": "The text of a function says what the function is", "statement": "Two functions that find_control_flow understands, printed with the function printer along their chains, have the same text if and only if the chains are equal and every block on the chain has the same instructions and the same branch in both. For functions of modules that were read with the built-in instruction set and validated there is no further condition; for others the texts of the instructions must be one line each, their result identifiers 32 bits, and the texts of the extended instructions different from each other. For a chain that was not found for the function this does not hold: a loop prints like a selection without else.", "quantifier": "all pairs of functions that are understood, all pairs of accepted byte strings", "why_tests_cant": "says that no two of infinitely many functions share a text", "anchors": ["src/spv/logical/control_flow.rs: ControlFlowFunctionPrinter, find_control_flow", "src/spv/logical/parser/parser.rs: validate", "src/spv/raw/reader.rs: read_module"]}
{"id": "C125", "title": "Which bits of the input matter", "statement": "Take an input that read_module accepts. Another input reads as the same module if and only if it consists of as many words, in either byte order, and every word is the same except for these bits: the high halves of the three lower bytes of the version word, the bits of flag operands that are not looked at, the padding after the end of a string, and the lowest bit of the word count of an instruction without operands. Changing any other bit leads to an error or to another module. This holds for the built-in instruction set, and for user sets that never read two different instructions as the same value; for other sets more inputs read alike.", "quantifier": "all pairs of byte strings, all lists of instruction sets that tell their instructions apart", "why_tests_cant": "says of every bit of every accepted input whether it matters", "anchors": ["src/spv/raw/reader.rs: read_module, read_instruction", "src/spv/raw/mod.rs: MemoryBlockRead"]}
{"id": "C126", "title": "Reading takes time linear in the input", "statement": "read_module takes at most (10 + the number of known sets) steps for each word of the input, and one more, whether it accepts or not; a step is a word taken, a byte of a string looked at or checked, an item pushed, a set asked for its name, an access to the map of imported sets or a call of a set. If it accepts, it takes at least one step and at most ten for each word, and one more for each pair of an import and a known set. Nine for each word would not do, and the number of sets has to be counted: no multiple of the length of the input alone is enough. What a user's set does when it is called is not counted.", "quantifier": "all byte strings, all lists of instruction sets", "why_tests_cant": "bounds the work for inputs of every length, also hostile ones", "anchors": ["src/spv/raw/reader.rs: read_module, read_instruction", "src/spv/raw/mod.rs: MemoryBlock, MemoryBlockRead"]}
{"id": "C127", "title": "Dominators can be read off the chain", "statement": "Let find_control_flow return a chain. Which blocks of the function can be reached, which blocks every execution has come through when it gets to a given block (its dominators), and which blocks every execution comes through from a given reachable block to the end (its post-dominators), are computed along the chain: a sequence is gone through if each of its elements is, a selection by its block and one of its arms, a loop by its header and a body that breaks. In particular, a block that stands in the chain only in constructs started by a block h is dominated by h; if it also stands elsewhere, which happens with blocks shared by arms, it need not be.", "quantifier": "all functions for which find_control_flow returns a chain, all pairs of blocks", "why_tests_cant": "dominance quantifies over all executions, also infinitely many through loops", "anchors": ["src/spv/logical/control_flow.rs: find_control_flow, ControlFlowChain"]}
{"id": "C128", "title": "Cutting a module short, and adding functions", "statement": "Let validate accept a module. The list of its first instructions, cut anywhere, is accepted exactly if it contains the memory model and as many OpFunctionEnd as OpFunction; then every part of the result (capabilities, globals, declarations, definitions, ...) is the start of the corresponding part of the whole module's result, so nothing before the cut is read differently because of what follows it. If the module has a function with a body, then what can be appended to it such that it is accepted are exactly the instructions of further functions, and they are found at the end of the definitions, everything else being as before. In a module without bodies a function without body is added to the declarations instead.", "quantifier": "all modules that validate accepts, all points to cut, all instructions to append", "why_tests_cant": "every cut of every accepted module; every continuation of it", "anchors": ["src/spv/logical/parser/parser.rs: validate", "src/spv/logical/mod.rs: LogicalModule"]}
{"id": "C129", "title": "Where an execution can go in circles", "statement": "Let find_control_flow return a chain. A block can be executed again after it was executed exactly if the chain has a loop, at a place that is arrived at, such that the block is its header, or can be executed in its body, in an execution of the body that makes the loop start again; this is computed along the chain. Every way from a reachable block back to it goes through the header of a loop of the chain. Between two such headers no block is executed twice, so a function without loops in its chain comes to an end after at most as many blocks as it has. If the chain names no block twice, then in every circle there is a header of a loop through which every execution has come that gets to any block of the circle: the function is reducible. If the chain names a block twice this need not be so: find_control_flow accepts a function with a loop that can be entered besides its header.", "quantifier": "all functions for which find_control_flow returns a chain, all of their reachable blocks, all ways through them", "why_tests_cant": "circles can be gone through any number of times and along any number of ways", "anchors": ["src/spv/logical/control_flow.rs: find_control_flow, ControlFlowChain"]}
{"id": "C130", "title": "The order of the instructions of a module", "statement": "If validate accepts two modules with the same instructions in different orders, the logical modules have the same capabilities, extensions, imports, entry points, execution modes, debug instructions, annotations and globals, up to their order, the same memory model, and the same functions if declarations and definitions are taken together. The things in each part of an accepted module, the declarations among themselves and the definitions among themselves may be put in any order, as long as the first definition has a body: the new order is accepted and is the one of the result. Two neighbouring instructions of the same kind may change places anywhere in any module without changing whether it is accepted, or the error. What a function contains can change with the order, and not every order is accepted.", "quantifier": "all modules, all orders of their instructions", "why_tests_cant": "there are as many orders as permutations of the instructions", "anchors": ["src/spv/logical/parser/mod.rs: validate"]}
{"id": "C131", "title": "How long the executions of a function are and how many there are", "statement": "Let find_control_flow return a chain. The number of blocks of the longest execution that returns, that of the shortest one, and the number of different executions that return are computed along the chain: adding up the elements of a block, taking the larger, the smaller or the sum over the arms of a selection (multiplying numbers of executions along a block), and without limit for a loop that can be left and can start again. The computed values are exact: they say that there is no execution that returns, or the exact number, or that there are arbitrarily long or infinitely many ones. There are infinitely many executions that return exactly if there are arbitrarily long ones.", "quantifier": "all functions for which find_control_flow returns a chain, all of their executions", "why_tests_cant": "the longest execution and the number of executions are statements about all executions, of which there can be exponentially many or infinitely many", "anchors": ["src/spv/logical/control_flow.rs: find_control_flow, ControlFlowChain"]}
{"id": "C132", "title": "Validity is decided by neighbours; adding and removing an instruction", "statement": "validate accepts a module exactly if its first and its last instruction and every pair of neighbouring instructions are allowed by a table of kinds. One instruction can be added to an accepted module exactly so: a capability, extension, import, entry point, execution mode, debug instruction, annotation or global wherever no later part comes before it and no earlier one after it; a parameter directly after OpFunction or a parameter; an instruction of a block directly after OpLabel or another one; a merge instruction at the end of a block that has none. A memory model, OpFunction, OpFunctionEnd, OpLabel or terminator can never be added or removed alone; everything else can always be removed.", "quantifier": "all instruction lists, all places, all instructions", "why_tests_cant": "there are unboundedly many lists and places", "anchors": ["src/spv/logical/parser/mod.rs: validate, read_many"]}
{"id": "C133", "title": "Files made of the instructions of another file", "statement": "If a file was read, a list of its instructions, in any order, with any left out or repeated, is what the reader returns for some other file exactly if every extended instruction comes after an import of its set and no two imports have the same id. So one instruction can be left out exactly if it is not the import of the set of an extended instruction behind it, and two neighbours can change places exactly if the first is not the import of the set of the second. Not every selection can be read.", "quantifier": "every input that is read with every collection of known sets, every list of its instructions", "why_tests_cant": "there are infinitely many files and the number of selections of a file is unbounded", "anchors": ["src/spv/raw/reader.rs:read_module", "src/spv/raw/reader.rs: OpExtInst::read"]}
{"id": "C134", "title": "Putting valid files together and taking them apart", "statement": "Two files that are read and accepted can be put together, part by part (with the memory model of the first), to a file that is read and accepted as exactly these parts if and only if no import of one has the id of an import of the other. What is taken from the parts of a file that is read and accepted, in any order and number, makes a file that is read and accepted as what was taken if and only if the first function of the definitions has a body, the set of every extended instruction taken is imported and no two imports taken have the same id. Files cannot be put together without that condition.", "quantifier": "every two files read with every collection of known sets and accepted; every choice of their parts", "why_tests_cant": "there are infinitely many files, and infinitely many choices from them", "anchors": ["src/spv/raw/reader.rs:read_module", "src/spv/logical/parser/mod.rs: validate"]}
{"id": "C135", "title": "The first bytes of an accepted file", "statement": "Cut an accepted file after any number of its bytes. Reading fails with UnexpectedEndOfStream or, if the cut is within a word, UnexpectedStreamAlignment; or gives the start of the instructions. Then the last instruction left decides what validate says: MemoryModelMissing before the memory model, UnexpectedInstruction with the index of an OpFunction that is the last instruction, ExpectedOpFunctionEnd after a parameter or a terminator, ExpectedBranch after a label, an instruction of a block or a merge, each with the number of instructions left; otherwise the file is accepted, and every part of the result is the start of that part of the whole. The number of places where the file can be cut and is still accepted is one more than its number of entry points, execution modes, debug instructions, annotations, globals and functions.", "quantifier": "every file read with every collection of known sets and accepted, every number of bytes", "why_tests_cant": "every cut of every file; the number of accepted cuts is an exact count over unbounded files", "anchors": ["src/spv/raw/reader.rs:read_module", "src/spv/logical/parser/mod.rs: validate"]}
{"id": "C136", "title": "Giving other numbers to the ids of a file", "statement": "Change every id of a file that was read to another number. There is a file that is read with these numbers, everything else unchanged, exactly if the imports still have different ids; so for every numbering that keeps different ids different, whatever the bound in the header says. (For other extended instruction sets than GLSL.std.450 this needs that the set can read its instructions with the new numbers from as many words.) validate gives the same error for the renumbered module, or a module of the same shape whose instructions are the renumbered ones. By renumbering its ids one accepted file can be put together with another. With a numbering that keeps different ids different, the control flow found for every function is the same with the numbers changed.", "quantifier": "every file, every function on ids with values of 32 bits", "why_tests_cant": "every numbering of the ids of every file, for each of 98 kinds of instruction", "anchors": ["src/spv/raw/reader.rs:read_module", "src/spv/logical/parser/mod.rs: validate", "src/spv/op.rs"]}
{"id": "C137", "title": "Leaving out the blocks that are not needed", "statement": "If find_control_flow understands a function of a file that is read and accepted, the blocks that the chain does not name can be left out: there is a file that is read and accepted as the same module with only this changed, for any choice of its understood functions. The control flow and the executions of these functions stay the same, no function with the same control flow has fewer blocks, and doing it a second time changes nothing. It would not do to keep only the blocks that an execution can reach: then the function may no longer be understood.", "quantifier": "every accepted file, every list of known extended instruction sets, every choice of functions", "why_tests_cant": "Functions have any number of blocks in any arrangement; that a smaller file exists and that no smaller one would do are claims about all files and all functions.", "anchors": ["src/spv/logical/control_flow.rs: find_control_flow", "src/spv/logical/parser/mod.rs: validate", "src/spv/raw/reader.rs: read_module"]}
{"id": "C138", "title": "Functions in which every block is used once", "statement": "find_control_flow understands functions in which several branches lead to the same block, and then names it several times. For every function it understands there is one that is made of copies of its blocks (same instructions, conditions, hints and weights, going to copies of the same blocks), that is written from a structured program with each block used once, and whose chain and executions are the same but for the labels, which can be consecutive numbers from any number on. With its blocks in the order of the chain and given labels, it is the only one. It has as many blocks as the chain names, counting every mention, and with fewer it cannot be done; there are functions with 2n+1 blocks for which it takes at least 2^n. If the function is in a file that is read and accepted and the labels fit into 32 bits, there is such a file with the new function in place of the old one.", "quantifier": "every function that find_control_flow understands, every first label, every execution", "why_tests_cant": "Functions have any number of blocks that share their ends in any way; the copies can be exponentially many, and that no fewer would do is a claim about all functions.", "anchors": ["src/spv/logical/control_flow.rs: find_control_flow, search_block", "src/spv/logical/parser/mod.rs: validate", "src/spv/raw/reader.rs: read_module"]}
{"id": "C139", "title": "What the instructions of a rewritten function do", "statement": "Executed one after the other with jumps to labels, the instructions of a function do the same after the rewritings that find_control_flow sees through: in a function made of copies of blocks (C138) they do what they did, in the copies; without the blocks that its control flow does not name (C137) they do exactly the same; with a block cut in two (C121) they do the same and pass one more label, also if the block starts a loop and whether or not the function is understood; with the arms of selections exchanged (C123) they do the same if the conditions there turn out the other way, whether or not the function is understood; with other numbers for the ids (C136) they do the same with the other numbers. Two functions with the same chain whose named blocks have the same instructions and conditions do the same. With another function inlined behind the first instructions of a block (C122), they do what they did and, whenever these instructions have been done, also something that the instructions of the other function can do until they return. This is so for what they do until they return and for what they have done at any moment.", "quantifier": "every function that is understood and every function made of copies of its blocks with the same chain; every block that is cut, all selections whose arms are exchanged, and every function with different labels whose branches lead to blocks; every two functions with the same chain; every injective renumbering of every module; every execution, returned or not, at every moment", "why_tests_cant": "There are infinitely many functions, rewritings and executions, and executions can be of any length because of loops.", "anchors": ["src/spv/logical/control_flow.rs: find_control_flow, search_block", "src/spv/logical/parser: validate", "src/spv/op.rs: OpBranch, OpBranchConditional, OpLabel, OpReturn"]}
