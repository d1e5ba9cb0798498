#!/usr/bin/env python3
"""Transcribes the repetitive parts of /repo (types, op structs, enum readers,
op readers, opcode dispatch, logical groups, Display arms) into Gallina, with a
file:line citation on every definition.  Only the MODEL is generated; every
specification file is written by hand.

usage: gen.py REPO OUTDIR
"""
import re, sys, os
REPO, OUT = sys.argv[1], sys.argv[2]
def rd(p): return open(os.path.join(REPO, p)).read().split("\n")
F = {k: v for k, v in dict(types="src/spv/types.rs", op="src/spv/op.rs", raw="src/spv/raw/mod.rs",
     reader="src/spv/raw/reader.rs", logical="src/spv/logical/mod.rs", pmod="src/spv/logical/parser/mod.rs").items()}
S = {k: rd(v) for k, v in F.items()}
HDR = "(* GENERATED by tools/gen.py from /repo; do not edit by hand. *)\n"

def cite(f, a, b=None):
    return "(* %s:%d%s *)" % (F[f], a, "" if b is None or b == a else "-%d" % b)

def block_from(lines, i):
    """lines[i] contains an opening brace: return index of matching close."""
    d = 0
    for j in range(i, len(lines)):
        # braces inside string literals of the sources always come in {} or {{ }} pairs
        d += lines[j].count("{") - lines[j].count("}")
        if d == 0: return j
    raise Exception("unbalanced")

def find_line(f, pat):
    for i, l in enumerate(S[f]):
        if re.search(pat, l): return i
    raise Exception("not found: " + pat)

# ---------------------------------------------------------------- Rust types
ALIAS = {"u32": "N", "u16": "N", "u8": "N", "OpId": "OpId", "ResultId": "ResultId", "LitString": "LitString",
         "LitBytes": "LitBytes", "SourceVersion": "SourceVersion", "MemberIndex": "MemberIndex", "bool": "bool",
         "String": "string"}
def coq_ty(t):
    t = t.strip()
    m = re.match(r"Vec<(.*)>$", t)
    if m: return "(list %s)" % coq_ty(m.group(1))
    m = re.match(r"Option<(.*)>$", t)
    if m: return "(option %s)" % coq_ty(m.group(1))
    if t in ALIAS: return ALIAS[t]
    if t == "ExtInstBox": return "E"
    return t
def ty_tag(t):
    """suffix used for the names of readers / printers of a Rust type"""
    return t.strip()
def reader_of(t):
    t = t.strip()
    m = re.match(r"Vec<(.*)>$", t)
    if m: return "(read_Vec size_of_%s %s)" % (m.group(1), reader_of(m.group(1)))
    m = re.match(r"Option<(.*)>$", t)
    if m: return "(read_Option %s)" % reader_of(m.group(1))
    if t == "LitBytes": return "(read_Vec size_of_u32 read_u32)"
    return "read_" + t
def fmt_of(t):
    t = t.strip()
    m = re.match(r"Vec<(.*)>$", t)
    if m: return "format_arg_Vec %s" % disp_of(m.group(1))
    m = re.match(r"Option<(.*)>$", t)
    if m: return "format_arg_Option %s" % disp_of(m.group(1))
    if t == "LitBytes": return "format_arg_Vec disp_u32"
    return "format_arg %s" % disp_of(t)
def disp_of(t):
    t = t.strip()
    if t == "LitString": return "display_arg_String"
    if t == "ExtInstBox": return "disp_ext"
    return "disp_" + t

def parse_enum(f, name):
    i = find_line(f, r"pub enum %s \{" % name) if name != "OpByBlock" else find_line(f, r"enum %s \{" % name)
    j = block_from(S[f], i)
    body = "\n".join(re.sub(r"//.*", "", l) for l in S[f][i+1:j])
    vs = []
    for m in re.finditer(r"([A-Za-z_0-9]+)(?:\(([^)]*)\))?\s*,", body):
        vs.append((m.group(1), [x.strip() for x in m.group(2).split(",")] if m.group(2) else []))
    return vs, i+1, j+1
def parse_struct(f, name):
    i = find_line(f, r"pub struct %s\b" % name)
    if S[f][i].rstrip().endswith(";"): return [], i+1, i+1
    j = block_from(S[f], i)
    fs = []
    for l in S[f][i+1:j]:
        m = re.match(r"\s*pub ([a-z_0-9]+): (.*),\s*$", l)
        if m: fs.append((m.group(1), m.group(2)))
    return fs, i+1, j+1

ENUMS = ["Tool", "SourceLanguage", "BuiltIn", "FunctionParameterAttribute", "FpRoundingMode", "LinkageType",
         "AddressingModel", "MemoryModel", "ExecutionModel", "ExecutionMode", "Capability",
         "Signedness", "StorageClass", "Dim", "DepthStatus", "Arrayed", "MS", "SampledStatus", "ImageFormat", "AccessQualifier"]
STRUCTS = ["Generator", "FpFastMathMode", "MemoryAccess", "FunctionControl", "LoopControl", "SelectionControl", "PhiArg", "BranchWeights"]
LATE_ENUMS = ["Decoration"]

def emit_enum(f, name, out):
    vs, a, b = parse_enum(f, name)
    out.append(cite(f, a, b))
    out.append("Inductive %s : Type :=" % name)
    for v, args in vs:
        out.append("| %s_%s%s" % (name, v, "".join(" (_ : %s)" % coq_ty(t) for t in args)))
    out[-1] += "."
    out.append("")
def emit_struct(f, name, out, params=""):
    fs, a, b = parse_struct(f, name)
    out.append(cite(f, a, b))
    out.append("Record %s%s : Type := Build_%s {" % (name, params, name))
    out.append(";\n".join("  %s_%s : %s" % (name, n, coq_ty(t)) for n, t in fs))
    out.append("}.")
    out.append("")

def cite_each(text):
    """Repeat the citation above a type before the definitions that follow it without one."""
    out, last = [], None
    for l in text.split("\n"):
        if re.match(r"\(\* src/.*\*\)$", l): last = l
        m = re.match(r"(?:Definition|Fixpoint|Inductive) ([\w']+)", l)
        if m and not (out and out[-1].rstrip().endswith("*)")):
            if m[1].endswith("MoreOp") or m[1] in ("PlainValue", "eq_Plain", "dbg_Plain"): out.append("(* src/spv/op.rs: which struct decides *)")
            elif out[-1].strip() != "" and last: out.append(last)
        out.append(l)
    return "\n".join(out)

def write(name, text):
    text = cite_each(text)
    open(os.path.join(OUT, name), "w").write(text)

# ---------------------------------------------------------------- Types.v
o = [HDR + "From Verif Require Import Base.", "", "(** Operand types: transcription of src/spv/types.rs. *)", ""]
o += ["(* src/spv/types.rs:7-9.  Newtype of u32, modelled by its number. *)", "Definition OpId := N.",
      "(* src/spv/types.rs:19-21.  Newtype of u32, modelled by its number. *)", "Definition ResultId := N.",
      "(* src/spv/types.rs:23-24 *)", "Definition LitBytes := list N.",
      "(* src/spv/types.rs:26-27.  Rust String, modelled as its bytes. *)", "Definition LitString := string.",
      "(* src/spv/types.rs:114-116.  Newtype of u32. *)", "Definition SourceVersion := N.",
      "(* src/spv/types.rs:356-358.  Newtype of u32. *)", "Definition MemberIndex := N.",
      "(* src/spv/types.rs:29-31 *)", "Record Version : Type := Build_Version { Version_0 : N; Version_1 : N }.", ""]
for e in ENUMS: emit_enum("types", e, o)
for s in STRUCTS: emit_struct("types", s, o)
for e in LATE_ENUMS: emit_enum("types", e, o)
o += ["(* derive(Default) on src/spv/types.rs:1106-1111 *)",
      "Definition MemoryAccess_default := Build_MemoryAccess false false false.",
      "(* derive(Default) on src/spv/types.rs:1135-1141 *)",
      "Definition FunctionControl_default := Build_FunctionControl false false false false.",
      "(* derive(Default) on src/spv/types.rs:1168-1176 *)",
      "Definition LoopControl_default := Build_LoopControl false false false None.",
      "(* derive(Default) on src/spv/types.rs:1203-1207 *)",
      "Definition SelectionControl_default := Build_SelectionControl false false.", ""]
write("Types.v", "\n".join(o))

# ---------------------------------------------------------------- Ops.v
core, ca, cb = parse_enum("raw", "Core")
ops = [v for v, _ in core]
o = [HDR + "From Verif Require Import Base Types.", "", "(** Op structs (src/spv/op.rs) of every variant of Core, and Core itself.",
     "    [E] is the type of extended instructions (ExtInstBox, src/spv/mod.rs:53-55). *)", ""]
fields = {}
for n in ops:
    fs, a, b = parse_struct("op", n)
    fields[n] = fs
    emit_struct("op", n, o, " (E : Type)" if n == "OpExtInst" else "")
o.append("Arguments Build_OpExtInst {E}.")
for x, _ in fields["OpExtInst"]: o.append("Arguments OpExtInst_%s {E}." % x)
o.append("")
o.append(cite("raw", ca, cb))
o.append("Inductive Core (E : Type) : Type :=")
for n in ops: o.append("| Core_%s (_ : %s)" % (n, "OpExtInst E" if n == "OpExtInst" else n))
o[-1] += "."
o.append("")
for n in ops: o.append("Arguments Core_%s {E}." % n)
o += ["", "(* src/spv/raw/mod.rs:16-25 *)", "Record RawModule (E : Type) : Type := Build_RawModule {",
      "  RawModule_version : Version;", "  RawModule_generator : Generator;", "  RawModule_bound : N;",
      "  RawModule_instructions : list (Core E)", "}.", "Arguments Build_RawModule {E}.",
      "Arguments RawModule_version {E}.", "Arguments RawModule_generator {E}.", "Arguments RawModule_bound {E}.",
      "Arguments RawModule_instructions {E}.", ""]
write("Ops.v", "\n".join(o))

# ---------------------------------------------------------------- ReadErr.v
vs, a, b = parse_enum("raw", "ReadError")
o = [HDR + "From Verif Require Import Base Types.", "", cite("raw", a, b) + "", "(* &'static str and String payloads are strings *)",
     "Inductive ReadError : Type :="]
for v, args in vs:
    args = ["string" if "str" in t or t == "String" else coq_ty(t) for t in args]
    o.append("| %s%s" % (v, "".join(" (_ : %s)" % t for t in args)))
o[-1] += "."
write("ReadErr.v", "\n".join(o) + "\n")

# ---------------------------------------------------------------- ReadOperands.v
def variant_args(ename):
    return dict(parse_enum("types", ename)[0])
READ_ENUMS = ["SourceLanguage", "AddressingModel", "MemoryModel", "ExecutionModel", "ExecutionMode", "Capability", "Signedness", "Dim",
              "DepthStatus", "Arrayed", "MS", "SampledStatus", "ImageFormat", "AccessQualifier", "StorageClass", "BuiltIn",
              "FunctionParameterAttribute", "FpRoundingMode", "LinkageType"]
def emit_enum_reader(e, o):
    i = find_line("raw", r"impl MemoryBlockRead for %s \{" % e)
    j = block_from(S["raw"], i)
    va = variant_args(e)
    o.append(cite("raw", i+1, j+1))
    o.append("Definition read_%s : Reader %s := fun block =>" % (e, e))
    o.append("  let! (block, word) := read_word block in")
    o.append("  match word with")
    body = "\n".join(S["raw"][i+1:j])
    body = body[body.index("match word {") + len("match word {"):]
    pos = 0
    armre = re.compile(r"\s*(\d+|[a-z]+) => (?:(\{.*?\n            \})|([^\n]*),)\n", re.S)
    n = 0
    while True:
        m = armre.match(body, pos)
        if not m: break
        pos = m.end(); n += 1
        key, blk, simple = m.groups()
        if blk is None:
            m2 = re.match(r"%s::(\w+)$" % e, simple)
            if m2:
                o.append("  | %s => Ok (block, %s_%s)" % (key, e, m2.group(1))); continue
            m2 = re.match(r"%s::(\w+)\((\w+)\)$" % e, simple)
            if m2:
                o.append("  | %s => Ok (block, %s_%s %s)" % (key, e, m2.group(1), m2.group(2))); continue
            m2 = re.match(r"return Err\(ReadError::(\w+)\((\w+)\)\)$", simple)
            o.append("  | %s => Err (%s %s)" % (key, m2.group(1), m2.group(2)))
        else:
            names = re.findall(r"let \(block, (\w+)\) = try!\((?:<(\w+) as )?MemoryBlockRead>?::read\(block\)\);", blk)
            m2 = re.search(r"return Ok\(\(block, %s::(\w+)\(([^)]*)\)\)\);" % e, blk)
            args = [x.strip() for x in m2.group(2).split(",")]
            tys = dict(zip(args, va[m2.group(1)]))
            assert len(names) == len(args) == len(va[m2.group(1)]), (e, blk)
            s = "  | %s =>\n" % key
            for x, explicit in names:
                if explicit: assert explicit == tys[x]
                s += "      let! (block, %s) := %s block in\n" % (x, reader_of(tys[x]))
            s += "      Ok (block, %s_%s %s)" % (e, m2.group(1), " ".join(args))
            o.append(s)
    rest = body[pos:]
    assert rest.strip().startswith("};"), (e, rest[:80])
    # number of arms equals number of arms in the Rust text
    assert n == len(re.findall(r"^            (?:\d+|id|n) =>", body, re.M)), e
    o.append("  end.")
    o.append("")
def at(f, pat):
    i = find_line(f, pat); return i, block_from(S[f], i)
o = [HDR + "From Verif Require Import Base Types ReadErr Utf8 ReadBase.", "Local Open Scope N_scope.", "",
     "(** MemoryBlockRead implementations of src/spv/raw/mod.rs. *)", ""]
def hand(e, text):
    i, j = at("raw", r"impl MemoryBlockRead for %s \{" % e)
    o.append(cite("raw", i+1, j+1)); o.append(text.strip()); o.append("")
hand("OpId", """
Definition read_OpId : Reader OpId := fun block =>
  let! (block, id) := read_word block in Ok (block, id).""")
hand("ResultId", """
Definition read_ResultId : Reader ResultId := fun block =>
  let! (block, id) := read_word block in Ok (block, id).""")
hand("u32", """
Definition read_u32 : Reader N := fun block => read_word block.""")
hand("SourceVersion", """
Definition read_SourceVersion : Reader SourceVersion := fun block =>
  let! (block, word) := read_word block in Ok (block, word).""")
hand("MemberIndex", """
Definition read_MemberIndex : Reader MemberIndex := fun block =>
  let! (block, word) := read_word block in Ok (block, word).""")
for e in READ_ENUMS: emit_enum_reader(e, o)
hand("FunctionControl", """
Definition read_FunctionControl : Reader FunctionControl := fun block =>
  let! (block, value) := read_word block in
  Ok (block, {| FunctionControl_inline := nonzero (N.land value 0x1);
                FunctionControl_dont_inline := nonzero (N.land value 0x2);
                FunctionControl_pure_function := nonzero (N.land value 0x4);
                FunctionControl_const_function := nonzero (N.land value 0x8) |}).""")
hand("MemoryAccess", """
Definition read_MemoryAccess : Reader MemoryAccess := fun block =>
  let! (block, memory_access_word) := read_word block in
  if nonzero (N.land memory_access_word 0xFFF8) then Err (UnknownMemoryAccess memory_access_word) else
  Ok (block, {| MemoryAccess_volatile := nonzero (N.land memory_access_word 0x1);
                MemoryAccess_aligned := nonzero (N.land memory_access_word 0x2);
                MemoryAccess_non_temporal := nonzero (N.land memory_access_word 0x4) |}).""")
hand("FpFastMathMode", """
Definition read_FpFastMathMode : Reader FpFastMathMode := fun block =>
  let! (block, id) := read_word block in
  if nonzero (N.land id 0xFFC0) then Err (UnknownFpFastMathMode id) else
  Ok (block, {| FpFastMathMode_not_nan := nonzero (N.land id 0x1);
                FpFastMathMode_not_inf := nonzero (N.land id 0x2);
                FpFastMathMode_nsz := nonzero (N.land id 0x4);
                FpFastMathMode_allow_recip := nonzero (N.land id 0x8);
                FpFastMathMode_fast := nonzero (N.land id 0x10) |}).""")
emit_enum_reader("Decoration", o)
hand("LoopControl", """
Definition read_LoopControl : Reader LoopControl := fun block =>
  let! (block, word) := read_word block in
  if nonzero (N.land word 0xFFF0) then Err (UnknownLoopControl word) else
  let dependency_length_val := nonzero (N.land word 0x8) in
  let! (block, dependency_length) :=
    if dependency_length_val
    then (let! (block, num) := read_word block in Ok (block, Some num))
    else Ok (block, None) in
  Ok (block, {| LoopControl_unroll := nonzero (N.land word 0x1);
                LoopControl_dont_unroll := nonzero (N.land word 0x2);
                LoopControl_dependency_infinite := nonzero (N.land word 0x4);
                LoopControl_dependency_length := dependency_length |}).""")
hand("SelectionControl", """
Definition read_SelectionControl : Reader SelectionControl := fun block =>
  let! (block, word) := read_word block in
  if nonzero (N.land word 0xFFFC) then Err (UnknownSelectionControl word) else
  Ok (block, {| SelectionControl_flatten := nonzero (N.land word 0x1);
                SelectionControl_dont_flatten := nonzero (N.land word 0x2) |}).""")
hand("BranchWeights", """
Definition read_BranchWeights : Reader BranchWeights := fun block =>
  let! (block, w1) := read_word block in
  let! (block, w2) := read_word block in
  Ok (block, {| BranchWeights_true_weight := w1; BranchWeights_false_weight := w2 |}).""")
hand("PhiArg", """
Definition read_PhiArg : Reader PhiArg := fun block =>
  let! (block, variable) := read_OpId block in
  let! (block, parent) := read_OpId block in
  Ok (block, {| PhiArg_variable := variable; PhiArg_parent := parent |}).""")
o += ["(* std::mem::size_of of the element types of Vec operands, used by src/spv/raw/mod.rs:412.",
      "   OpId and u32 are 4 bytes; PhiArg is two u32 (src/spv/types.rs:1229-1232). *)",
      "Definition size_of_u32 : N := 4.", "Definition size_of_OpId : N := 4.", "Definition size_of_PhiArg : N := 8.", ""]
write("ReadOperands.v", "\n".join(o))

# ---------------------------------------------------------------- ReadOps.v
text = "\n".join(S["reader"])
def line_of(pos): return text.count("\n", 0, pos) + 1
reads = {}
for m in re.finditer(r"^def_op_read!\((\w+);([^)]*)\);", text, re.M):
    reads[m.group(1)] = ([x.strip() for x in m.group(2).split("|") if x.strip()], line_of(m.start()), line_of(m.end()-1))
for m in re.finditer(r"^def_op_read_s1!\((\w+)\);", text, re.M):
    reads[m.group(1)] = (["result_type", "result_id", "operand"], line_of(m.start()), line_of(m.start()))
for m in re.finditer(r"^def_op_read_s2!\((\w+)\);", text, re.M):
    reads[m.group(1)] = (["result_type", "result_id", "operand1", "operand2"], line_of(m.start()), line_of(m.start()))
o = [HDR + "From Verif Require Import Base Types Ops ReadErr ReadBase ReadOperands ExtSet.", "Local Open Scope N_scope.", "",
     "(** def_op_read! expansions (macro: src/spv/raw/reader.rs:440-479). *)", ""]
for n in ops:
    if n not in reads: continue
    rs, a, b = reads[n]
    tys = dict(fields[n])
    assert sorted(rs) == sorted(tys), n
    o.append(cite("reader", a, b))
    o.append("Definition read_%s : Reader %s := fun block =>" % (n, n))
    for r in rs: o.append("  let! (block, %s) := %s block in" % (r, reader_of(tys[r])))
    if rs: o.append("  Ok (block, {| %s |})." % "; ".join("%s_%s := %s" % (n, r, r) for r in rs))
    else: o.append("  Ok (block, Build_%s)." % n)
    o.append("")
o += ["Section ReadCore.", "Context {E : Type}.", "",
      "(* The result of CoreRead::read_core (src/spv/raw/reader.rs:433-438): remaining block, instruction",
      "   and the updated bound_inst_sets (&mut HashMap). *)",
      "Definition CoreReader := list N -> list (ExtInstSet E) -> bound_sets E ->",
      "  outcome ReadError (list N * Core E * bound_sets E).", "",
      "(* impl CoreRead in def_op_read!, src/spv/raw/reader.rs:457-465: the sets are ignored *)",
      "Definition plain {A} (read : Reader A) (wrap : A -> Core E) : CoreReader := fun block _ bound =>",
      "  let! (block, item) := read block in Ok (block, wrap item, bound).", ""]
for n in ops:
    if n in reads:
        o.append(cite("reader", reads[n][1], reads[n][2]))
        o.append("Definition read_core_%s : CoreReader := plain read_%s Core_%s." % (n, n, n))
o += ["",
 "(* src/spv/raw/reader.rs:502-524 *)",
 "Fixpoint import_loop (result_id : ResultId) (name : LitString) (block : list N) (bound : bound_sets E)",
 "    (sets : list (ExtInstSet E)) : outcome ReadError (list N * Core E * bound_sets E) :=",
 "  match sets with",
 "  | [] => Err (UnknownInstSet name)",
 "  | inst_set :: rest =>",
 "      if String.eqb (get_name inst_set) name then",
 "        let '(old, bound) := map_insert result_id (duplicate inst_set) bound in",
 "        match old with",
 "        | Some _ => Err (DuplicateResultId result_id)",
 "        | None => Ok (block, Core_OpExtInstImport",
 "            {| OpExtInstImport_result_id := result_id; OpExtInstImport_name := name |}, bound)",
 "        end",
 "      else import_loop result_id name block bound rest",
 "  end.",
 "",
 "(* src/spv/raw/reader.rs:502-524 *)",
 "Definition read_core_OpExtInstImport : CoreReader := fun block known bound =>",
 "  let! (block, result_id) := read_ResultId block in",
 "  let! (block, name) := read_LitString block in",
 "  import_loop result_id name block bound known.",
 "",
 "(* src/spv/raw/reader.rs:526-549 *)",
 "Definition read_core_OpExtInst : CoreReader := fun block _ bound =>",
 "  let! (block, result_type) := read_OpId block in",
 "  let! (block, result_id) := read_ResultId block in",
 "  let! (block, set_id) := read_OpId block in",
 "  let! (block, inst) := read_u32 block in",
 "  match map_get set_id bound with",
 "  | Some read_instruction =>",
 "      let! (block, extinst) := read_instruction inst block in",
 "      Ok (block, Core_OpExtInst {| OpExtInst_result_type := result_type; OpExtInst_result_id := result_id;",
 "                                   OpExtInst_set := set_id; OpExtInst_instruction := extinst |}, bound)",
 "  | None => Err (UnknownInstSetId set_id)",
 "  end.", ""]
i = find_line("reader", r"let read_fn = match id \{")
j = block_from(S["reader"], i)
o.append(cite("reader", i+1, j+1))
o.append("Definition dispatch (id wc : N) : outcome ReadError CoreReader :=")
o.append("  match id with")
cnt = 0
for l in S["reader"][i+1:j]:
    m = re.match(r"\s*(\d+) => (\w+)::read_core,$", l)
    if m: o.append("  | %s => Ok read_core_%s" % m.groups()); cnt += 1; continue
    m = re.match(r'\s*(\d+) => return Err\(ReadError::UnimplementedOp\("(\w+)"\)\),$', l)
    if m: o.append('  | %s => Err (UnimplementedOp "%s")' % m.groups()); cnt += 1; continue
    m = re.match(r"\s*_ => return Err\(ReadError::UnknownOp\(id, wc\)\),$", l)
    if m: o.append("  | _ => Err (UnknownOp id wc)"); cnt += 1; continue
    raise Exception(l)
assert cnt == j - i - 1
o += ["  end.", "", "End ReadCore.", ""]
write("ReadOps.v", "\n".join(o))

# ---------------------------------------------------------------- Groups.v
o = [HDR + "From Verif Require Import Base Types Ops.", "", "(** Groups of src/spv/logical/mod.rs and OpByBlock of src/spv/logical/parser/mod.rs. *)", ""]
GROUPS = ["GroupDebug", "GroupAnnotation", "GroupType", "GroupConstant", "GroupGlobal", "GroupCode", "GroupMerge", "GroupBranch"]
groups = {}
for g in GROUPS:
    vs, a, b = parse_enum("logical", g)
    groups[g] = [v for v, _ in vs]
    o.append(cite("logical", a, b))
    p = g == "GroupCode"
    o.append("Inductive %s%s : Type :=" % (g, " (E : Type)" if p else ""))
    for v, args in vs: o.append("| %s_%s (_ : %s)" % (g, v, "OpExtInst E" if args[0] == "OpExtInst" else args[0]))
    o[-1] += "."
    if p:
        for v, _ in vs: o.append("Arguments %s_%s {E}." % (g, v))
    o.append("")
def lrec(name, ps, fs, a, b):
    o.append(cite("logical", a, b))
    o.append("Record %s%s : Type := Build_%s {" % (name, " (E : Type)" if ps else "", name))
    o.append(";\n".join("  %s_%s : %s" % (name, n, t) for n, t in fs))
    o.append("}.")
    if ps:
        o.append("Arguments Build_%s {E}." % name)
        for n, _ in fs: o.append("Arguments %s_%s {E}." % (name, n))
    o.append("")
def lstruct(name):
    fs, a, b = parse_struct("logical", name)
    par = {"GroupCode": "(GroupCode E)", "BasicBlock": "(BasicBlock E)", "FunctionDefinition": "(FunctionDefinition E)"}
    ps = any(any(k in t for k in par) for _, t in fs)
    def cv(t):
        s = coq_ty(t)
        for k, v in par.items(): s = re.sub(r"\b%s\b" % k, v, s)
        return s
    lrec(name, ps, [(n, cv(t)) for n, t in fs], a, b)
for n in ["FunctionDeclaration", "BasicBlock", "FunctionDefinition", "LogicalModule"]: lstruct(n)
vs, a, b = parse_enum("pmod", "OpByBlock")
o.append(cite("pmod", a, b))
o.append("Inductive OpByBlock (E : Type) : Type :=")
for v, args in vs: o.append("| OpByBlock_%s (_ : %s)" % (v, "GroupCode E" if v == "GroupCode" else args[0]))
o[-1] += "."
for v, _ in vs: o.append("Arguments OpByBlock_%s {E}." % v)
byblock = [v for v, _ in vs]
o.append("")
o += ["(* src/spv/logical/parser/mod.rs:86-93 *)",
      "Definition from_OpVariable {E} (op : OpVariable) : OpByBlock E :=",
      "  match OpVariable_storage_class op with",
      "  | StorageClass_Function => OpByBlock_GroupCode (GroupCode_OpVariable op)",
      "  | _ => OpByBlock_GroupGlobal (GroupGlobal_OpVariable op)",
      "  end.", ""]
i = find_line("pmod", r"impl From<Core> for OpByBlock")
j = block_from(S["pmod"], i)
o.append(cite("pmod", i+1, j+1) + "")
o.append("(* `.into()` on a group is the matching From impl, src/spv/logical/parser/mod.rs:38-84 *)")
o.append("Definition from_Core {E} (inst : Core E) : OpByBlock E :=")
o.append("  match inst with")
seen = 0
for l in S["pmod"][i:j]:
    m = re.match(r"\s*(\w+)\(op\) => (\w+)::(\w+)\(op\)\.into\(\),$", l)
    if m:
        n, g, v = m.groups(); seen += 1
        inner = "%s_%s op" % (g, v)
        if g in ("GroupType", "GroupConstant"): s = "OpByBlock_GroupGlobal (GroupGlobal_%s (%s))" % (g, inner)
        else: s = "OpByBlock_%s (%s)" % (g, inner)
        o.append("  | Core_%s op => %s" % (n, s)); continue
    m = re.match(r"\s*(\w+)\(op\) => OpByBlock::(\w+)\(op\),$", l)
    if m: seen += 1; o.append("  | Core_%s op => OpByBlock_%s op" % m.groups()); continue
    m = re.match(r"\s*(\w+)\(op\) => op\.into\(\),$", l)
    if m: seen += 1; assert m.group(1) == "OpVariable"; o.append("  | Core_OpVariable op => from_OpVariable op"); continue
assert seen == len(ops)
o += ["  end.", ""]
write("Groups.v", "\n".join(o))

# ---------------------------------------------------------------- DisplayTypes.v
o = [HDR + "From Verif Require Import Base Types DisplayBase.", "Local Open Scope string_scope.", "", "(** Display of operand types, src/spv/types.rs. *)", ""]
def cq(s): return '"' + s.replace('"', '""') + '"'
def emit_enum_display(e, o):
    i = find_line("types", r"impl Display for %s \{" % e)
    j = block_from(S["types"], i)
    va = variant_args(e)
    body = "\n".join(S["types"][i+1:j])
    body = body[body.index("match *self {") + len("match *self {"):]
    o.append(cite("types", i+1, j+1))
    o.append("Definition disp_%s (x : %s) : string :=" % (e, e))
    o.append("  match x with")
    n = 0
    for m in re.finditer(r"%s::(\w+)(?:\(([^)]*)\))? =>\s*(?:\{\s*)?(?:(\"[^\"]*\")|(\d+)|return write!\(f, (\"[^\"]*\"), ([^)]*)\))" % e, body):
        v, args, lit, num, fmt, fargs = m.groups(); n += 1
        if lit: o.append("  | %s_%s => %s" % (e, v, lit)); continue
        if num: o.append('  | %s_%s => disp_u32 %s' % (e, v, num)); continue
        names = [x.replace("ref ", "").strip() for x in args.split(",")]
        tys = dict(zip(names, va[v]))
        parts = fmt[1:-1].split("{}")
        fa = [x.strip() for x in fargs.split(",")]
        assert len(parts) == len(fa) + 1
        out = []
        for k, pt in enumerate(parts):
            if pt: out.append(cq(pt))
            if k < len(fa):
                t = tys[fa[k]]
                out.append(fa[k] if t == "LitString" else "disp_%s %s" % (t, fa[k]))
        o.append("  | %s_%s %s => %s" % (e, v, " ".join(names), " ++ ".join(out)))
    assert n == len(va), (e, n, len(va))
    o.append("  end.")
    o.append("")
for e in [x for x in ENUMS if x != "Tool"]: emit_enum_display(e, o)
def flags(s, parts):
    i, j = at("types", r"impl Display for %s \{" % s)
    o.append(cite("types", i+1, j+1))
    o.append("Definition disp_%s (x : %s) : string :=" % (s, s))
    src = "\n".join(S["types"][i:j])
    got = re.findall(r'if self\.(\w+) \{\s*parts\.push\("(\w+)"(?:\.to_string\(\))?\);', src)
    assert len(got) == parts
    items = ["(if %s_%s x then [%s] else [])" % (s, a, cq(b)) for a, b in got]
    if s == "LoopControl":
        items.append('match LoopControl_dependency_length x with Some len => [("DependencyLength(" ++ disp_u32 len ++ ")")%string] | None => [] end')
    o.append("  let parts := (" + "\n    ++ ".join(items) + ")%list in")
    o.append('  match parts with [] => "None" | _ => String.concat " | " parts end.')
    o.append("")
flags("FpFastMathMode", 5); flags("MemoryAccess", 3); flags("FunctionControl", 4); flags("LoopControl", 3); flags("SelectionControl", 2)
i, j = at("types", r"impl Display for PhiArg \{")
o += [cite("types", i+1, j+1), 'Definition disp_PhiArg (x : PhiArg) : string :=', '  disp_OpId (PhiArg_variable x) ++ " " ++ disp_OpId (PhiArg_parent x).', ""]
i, j = at("types", r"impl Display for BranchWeights \{")
o += [cite("types", i+1, j+1), 'Definition disp_BranchWeights (x : BranchWeights) : string :=', '  disp_u32 (BranchWeights_true_weight x) ++ " " ++ disp_u32 (BranchWeights_false_weight x).', ""]
emit_enum_display("Decoration", o)
for fn, ret in (("get_vendor", None), ("get_tool", None)):
    i = find_line("types", r"pub fn %s\(" % fn); j = block_from(S["types"], i)
    o.append(cite("types", i+1, j+1))
    o.append("Definition Tool_%s (x : Tool) : option string :=" % fn)
    o.append("  match x with")
    for l in S["types"][i:j]:
        m = re.match(r'\s*Tool::(\w+)(\(_\))? => (?:"([^"]*)"|return None),$', l)
        if m: o.append("  | Tool_%s%s => %s" % (m.group(1), " _" if m.group(2) else "", "Some " + cq(m.group(3)) if m.group(3) else "None"))
        if re.match(r"\s*_ => return None,$", l): o.append("  | _ => None")
    o += ["  end.", ""]
write("DisplayTypes.v", "\n".join(o))

# ---------------------------------------------------------------- DisplayOps.v
text = "\n".join(S["op"])
disps = {}
for m in re.finditer(r"^def_op_display!\((\w+);([^)]*)\);", text, re.M):
    b = m.group(2); has = False
    m2 = re.match(r"\s*result_id =(.*)$", b, re.S)
    if m2: has = True; b = m2.group(1)
    disps[m.group(1)] = (has, [x.strip() for x in b.split("|") if x.strip()], text.count("\n", 0, m.start())+1, text.count("\n", 0, m.end()-1)+1)
for m in re.finditer(r"^def_op_display_s1!\((\w+)\);", text, re.M):
    disps[m.group(1)] = (True, ["result_type", "operand"], text.count("\n", 0, m.start())+1, text.count("\n", 0, m.start())+1)
for m in re.finditer(r"^def_op_display_s2!\((\w+)\);", text, re.M):
    disps[m.group(1)] = (True, ["result_type", "operand1", "operand2"], text.count("\n", 0, m.start())+1, text.count("\n", 0, m.start())+1)
o = [HDR + "From Verif Require Import Base Types Ops Groups DisplayBase DisplayTypes.", "Local Open Scope string_scope.", "",
     "(** def_op_display! expansions (macro: src/spv/dis.rs:92-133). *)", ""]
for n in ops:
    has, args, a, b = disps[n]
    tys = dict(fields[n])
    o.append(cite("op", a, b))
    ext = n == "OpExtInst"
    o.append("Definition disp_%s %s(op : %s) : string :=" % (n, "{E} (disp_ext : E -> string) " if ext else "", "OpExtInst E" if ext else n))
    parts = ["disp_Result (%s_result_id op)" % n if has else "disp_NoResult", cq(n)]
    parts += ["%s (%s_%s op)" % (fmt_of(tys[x]), n, x) for x in args]
    o.append("  " + " ++ ".join(parts) + ".")
    o.append("")
o += ["Section DisplayCore.", "Context {E : Type} (disp_ext : E -> string).", ""]
def disp_match(f, pat, rust, coqname, ty):
    i, j = at(f, pat)
    o.append(cite(f, i+1, j+1))
    o.append("Definition disp_%s (x : %s) : string :=" % (coqname, ty))
    o.append("  match x with")
    vs = re.findall(r"%s::(\w+)\(ref op\) => Display::fmt\(op, f\)," % rust, "\n".join(S[f][i:j]))
    for v in vs: o.append("  | %s_%s op => %s op" % (coqname, v, "disp_OpExtInst disp_ext" if v == "OpExtInst" else "disp_" + v))
    o.append("  end.")
    o.append("")
disp_match("raw", r"impl Display for Core \{", "Core", "Core", "Core E")
disp_match("logical", r"impl fmt::Display for GroupCode \{", "GroupCode", "GroupCode", "GroupCode E")
disp_match("logical", r"impl fmt::Display for GroupBranch \{", "GroupBranch", "GroupBranch", "GroupBranch")
o += ["End DisplayCore.", ""]
write("DisplayOps.v", "\n".join(o))

# ---------------------------------------------------------------- ErrText.v
i = find_line("raw", r"impl Error for ReadError \{"); j = block_from(S["raw"], i)
o = [HDR + "From Verif Require Import Base Types ReadErr FmtBase.", "Local Open Scope string_scope.", "", "(** Texts of reader errors. *)", "",
     cite("raw", i+1, j+1), "Definition description (e : ReadError) : string :=", "  match e with"]
n = 0
for l in S["raw"][i:j]:
    m = re.match(r'\s*(\w+)(?:\(([_, ]*)\))? => ("[^"]*"),$', l)
    if m: n += 1; o.append("  | %s%s => %s" % (m.group(1), " _" * (m.group(2) or "").count("_"), m.group(3)))
assert n == len(parse_enum("raw", "ReadError")[0])
i, j = at("raw", r"impl Display for ReadError \{")
o += ["  end.", "", cite("raw", i+1, j+1), "Definition fmt_ReadError : Display ReadError := fun e f => write_fmt [lit (description e)].", ""]
write("ErrText.v", "\n".join(o))

# ---------------------------------------------------------------- FmtTypes.v
def fdisp_of(t):
    t = t.strip()
    if t == "LitString": return "display_arg_fmt_String"
    if t == "ExtInstBox": return "fmt_ext"
    return "fmt_" + t
def ffmt_of(t):
    t = t.strip()
    m = re.match(r"Vec<(.*)>$", t)
    if m: return "fmt_arg_Vec %s" % fdisp_of(m.group(1))
    m = re.match(r"Option<(.*)>$", t)
    if m: return "fmt_arg_Option %s" % fdisp_of(m.group(1))
    if t == "LitBytes": return "fmt_arg_Vec fmt_u32"
    return "fmt_arg %s" % fdisp_of(t)
o = [HDR + "From Verif Require Import Base Types DisplayBase FmtBase.", "Local Open Scope string_scope.", "",
     "(** Display of operand types into a writer, src/spv/types.rs. *)", ""]
def emit_enum_fmt(e, o):
    i = find_line("types", r"impl Display for %s \{" % e)
    j = block_from(S["types"], i)
    va = variant_args(e)
    body = "\n".join(S["types"][i+1:j])
    tail = body[body.rindex("};"):] if "let name" in body else ""
    body = body[body.index("match *self {") + len("match *self {"):]
    assert 'write!(f, "{}", name)' in tail
    o.append(cite("types", i+1, j+1))
    o.append("Definition fmt_%s : Display %s := fun x f =>" % (e, e))
    o.append("  match x with")
    n = 0
    for m in re.finditer(r"%s::(\w+)(?:\(([^)]*)\))? =>\s*(?:\{\s*)?(?:(\"[^\"]*\")|(\d+)|return write!\(f, (\"[^\"]*\"), ([^)]*)\))" % e, body):
        v, args, l, num, fmt, fargs = m.groups(); n += 1
        if l: o.append("  | %s_%s => write_fmt [lit %s]" % (e, v, l)); continue
        if num: o.append("  | %s_%s => write_fmt [fmt_u32 %s%%N plain]" % (e, v, num)); continue
        names = [x.replace("ref ", "").strip() for x in args.split(",")]
        tys = dict(zip(names, va[v]))
        parts = fmt[1:-1].split("{}"); fa = [x.strip() for x in fargs.split(",")]
        out = []
        for k, pt in enumerate(parts):
            if pt: out.append("lit " + cq(pt))
            if k < len(fa):
                t = tys[fa[k]]
                out.append("lit " + fa[k] if t == "LitString" else "fmt_%s %s plain" % (t, fa[k]))
        o.append("  | %s_%s %s => write_fmt [%s]" % (e, v, " ".join(names), "; ".join(out)))
    assert n == len(va), (e, n, len(va))
    o += ["  end.", ""]
for e in [x for x in ENUMS if x != "Tool"]: emit_enum_fmt(e, o)
def fflags(s, parts):
    i, j = at("types", r"impl Display for %s \{" % s)
    o.append(cite("types", i+1, j+1))
    o.append("Definition fmt_%s : Display %s := fun x f =>" % (s, s))
    src = "\n".join(S["types"][i:j])
    got = re.findall(r'if self\.(\w+) \{\s*parts\.push\("(\w+)"(?:\.to_string\(\))?\);', src)
    assert len(got) == parts
    items = ["(if %s_%s x then [%s] else [])" % (s, a, cq(b)) for a, b in got]
    if s == "LoopControl":
        items.append('match LoopControl_dependency_length x with Some len => [("DependencyLength(" ++ disp_u32 len ++ ")")%string] | None => [] end')
    o.append("  let parts := (" + "\n    ++ ".join(items) + ")%list in")
    o.append('  match parts with [] => write_fmt [lit "None"] | _ => write_fmt [lit (String.concat " | " parts)] end.')
    o.append("")
fflags("FpFastMathMode", 5); fflags("MemoryAccess", 3); fflags("FunctionControl", 4); fflags("LoopControl", 3); fflags("SelectionControl", 2)
i, j = at("types", r"impl Display for PhiArg \{")
o += [cite("types", i+1, j+1), 'Definition fmt_PhiArg : Display PhiArg := fun x f =>', '  write_fmt [fmt_OpId (PhiArg_variable x) plain; lit " "; fmt_OpId (PhiArg_parent x) plain].', ""]
i, j = at("types", r"impl Display for BranchWeights \{")
o += [cite("types", i+1, j+1), 'Definition fmt_BranchWeights : Display BranchWeights := fun x f =>', '  write_fmt [fmt_u32 (BranchWeights_true_weight x) plain; lit " "; fmt_u32 (BranchWeights_false_weight x) plain].', ""]
emit_enum_fmt("Decoration", o)
write("FmtTypes.v", "\n".join(o))

# ---------------------------------------------------------------- FmtOps.v
o = [HDR + "From Verif Require Import Base Types Ops Groups DisplayBase FmtBase FmtTypes.", "Local Open Scope string_scope.", "",
     "(** def_op_display! expansions (macro: src/spv/dis.rs:92-133) into a writer. *)", ""]
for n in ops:
    has, args, a, b = disps[n]
    tys = dict(fields[n])
    o.append(cite("op", a, b))
    ext = n == "OpExtInst"
    o.append("Definition fmt_%s %s: Display %s := fun op f =>" % (n, "{E} (fmt_ext : Display E) " if ext else "", "(OpExtInst E)" if ext else n))
    parts = ["write_fmt [%s; lit %s]" % ("fmt_Result (%s_result_id op) plain" % n if has else "fmt_NoResult plain", cq(n))]
    parts += ["%s (%s_%s op) f" % (ffmt_of(tys[x]), n, x) for x in args]
    o.append("  " + "".join("try_ (%s) (" % p for p in parts) + "done" + ")" * len(parts) + ".")
    o.append("")
o += ["Section FmtCore.", "Context {E : Type} (fmt_ext : Display E).", ""]
def fmt_match(f, pat, rust, coqname, ty):
    i, j = at(f, pat)
    o.append(cite(f, i+1, j+1))
    o.append("Definition fmt_%s : Display %s := fun x f =>" % (coqname, ty))
    o.append("  match x with")
    vs = re.findall(r"%s::(\w+)\(ref op\) => Display::fmt\(op, f\)," % rust, "\n".join(S[f][i:j]))
    for v in vs: o.append("  | %s_%s op => %s op f" % (coqname, v, "fmt_OpExtInst fmt_ext" if v == "OpExtInst" else "fmt_" + v))
    o.append("  end.")
    o.append("")
fmt_match("raw", r"impl Display for Core \{", "Core", "Core", "(Core E)")
fmt_match("logical", r"impl fmt::Display for GroupCode \{", "GroupCode", "GroupCode", "(GroupCode E)")
fmt_match("logical", r"impl fmt::Display for GroupBranch \{", "GroupBranch", "GroupBranch", "GroupBranch")
o += ["End FmtCore.", ""]
write("FmtOps.v", "\n".join(o))

# ---------------------------------------------------------------- Equality.v (derived PartialEq)
def eq_of(t):
    t = t.strip()
    m = re.match(r"Vec<(.*)>$", t)
    if m: return "(eq_Vec %s)" % eq_of(m.group(1))
    m = re.match(r"Option<(.*)>$", t)
    if m: return "(eq_Option %s)" % eq_of(m.group(1))
    if t in ("u32", "u16", "u8", "OpId", "ResultId", "SourceVersion", "MemberIndex", "Line", "Column"): return "N.eqb"
    if t in ("LitString", "String") or "str" in t: return "String.eqb"
    if t == "bool": return "Bool.eqb"
    if t == "LitBytes": return "(eq_Vec N.eqb)"
    if t == "ExtInstBox": return "eq_ext"
    if t in PARAM: return "(eq_%s eq_ext)" % t
    return "eq_" + t
PARAM = {"OpExtInst", "Core", "GroupCode", "BasicBlock", "FunctionDefinition", "LogicalModule", "RawModule"}
def eq_head(t):
    if t in PARAM: return "Definition eq_%s {E} (eq_ext : E -> E -> bool) (a b : %s E) : bool :=" % (t, t)
    return "Definition eq_%s (a b : %s) : bool :=" % (t, t)
def conj(l): return " && ".join(l) if l else "true"
def emit_enum_eq(f, name, o, prefix=True):
    vs, a, b = parse_enum(f, name)
    o.append(cite(f, a - 1, b) + "")
    o.append(eq_head(name))
    o.append("  match a, b with")
    p = name + "_" if prefix else ""
    for v, args in vs:
        xs = ["x%d" % k for k in range(len(args))]; ys = ["y%d" % k for k in range(len(args))]
        o.append("  | %s, %s => %s" % (" ".join([p + v] + xs), " ".join([p + v] + ys),
                                       conj(["%s %s %s" % (eq_of(t), x, y) for t, x, y in zip(args, xs, ys)])))
    if len(vs) > 1: o.append("  | _, _ => false")
    o += ["  end.", ""]
def emit_struct_eq(f, name, o):
    fs, a, b = parse_struct(f, name)
    o.append(cite(f, a - 1, b))
    o.append(eq_head(name))
    o.append("  " + conj(["%s (%s_%s a) (%s_%s b)" % (eq_of(t), name, n, name, n) for n, t in fs]) + ".")
    o.append("")
o = [HDR + "From Verif Require Import Base Types Ops ReadErr Groups EqBase.", "",
     "(** derive(PartialEq), type by type.  [eq_ext] is ExtInst::eq of extended instructions. *)", "",
     "(* src/spv/types.rs:29-31 *)",
     "Definition eq_Version (a b : Version) : bool := N.eqb (Version_0 a) (Version_0 b) && N.eqb (Version_1 a) (Version_1 b).", ""]
for e in ENUMS: emit_enum_eq("types", e, o)
for s in STRUCTS: emit_struct_eq("types", s, o)
for e in LATE_ENUMS: emit_enum_eq("types", e, o)
for n in ops: emit_struct_eq("op", n, o)
emit_enum_eq("raw", "Core", o)
emit_struct_eq("raw", "RawModule", o)
emit_enum_eq("raw", "ReadError", o, False)
for g in GROUPS: emit_enum_eq("logical", g, o)
for n in ["FunctionDeclaration", "BasicBlock", "FunctionDefinition", "LogicalModule"]: emit_struct_eq("logical", n, o)
write("Equality.v", "\n".join(o))

# ---------------------------------------------------------------- MoreOps.v
more = [n for n in disps if n not in ops]
more.sort(key=lambda n: disps[n][2])
o = [HDR + "From Verif Require Import Base Types EqBase Equality DisplayBase DisplayTypes FmtBase FmtTypes.", "Local Open Scope string_scope.", "",
     "(** Op structs that can be printed but that no opcode is read into: data, Display, Display into a writer, and",
     "    derived equality. *)", "",
     "(* src/spv/types.rs:126-128.  Newtype of u32. *)", "Definition Line := N.",
     "(* src/spv/types.rs:138-140.  Newtype of u32. *)", "Definition Column := N.",
     "(* src/spv/types.rs:130-134 *)", "Definition disp_Line (l : Line) : string := disp_u32 l.",
     "Definition fmt_Line : Display Line := fun l f => write_fmt [fmt_u32 l plain].",
     "(* src/spv/types.rs:142-146 *)", "Definition disp_Column (c : Column) : string := disp_u32 c.",
     "Definition fmt_Column : Display Column := fun c f => write_fmt [fmt_u32 c plain].", ""]
for e in ["SamplerAddressingMode", "SamplerParam", "SamplerFilterMode"]:
    emit_enum("types", e, o); emit_enum_display(e, o); emit_enum_fmt(e, o); emit_enum_eq("types", e, o)
for n in more:
    emit_struct("op", n, o)
    fs, a, b = parse_struct("op", n)
    has, args, a, b = disps[n]
    tys = dict(fs)
    o.append(cite("op", a, b))
    o.append("Definition disp_%s (op : %s) : string :=" % (n, n))
    parts = ["disp_Result (%s_result_id op)" % n if has else "disp_NoResult", cq(n)]
    parts += ["%s (%s_%s op)" % (fmt_of(tys[x]), n, x) for x in args]
    o.append("  " + " ++ ".join(parts) + ".")
    o.append("Definition fmt_%s : Display %s := fun op f =>" % (n, n))
    parts = ["write_fmt [%s; lit %s]" % ("fmt_Result (%s_result_id op) plain" % n if has else "fmt_NoResult plain", cq(n))]
    parts += ["%s (%s_%s op) f" % (ffmt_of(tys[x]), n, x) for x in args]
    o.append("  " + "".join("try_ (%s) (" % p for p in parts) + "done" + ")" * len(parts) + ".")
    emit_struct_eq("op", n, o)
o += ["(** One of the structs of src/spv/op.rs: not a type of the crate, a way to speak about them all. *)", "Inductive MoreOp : Type :="]
for n in more: o.append("| More_%s (_ : %s)" % (n, n))
o[-1] += "."
for head, pre, post in (("Definition disp_MoreOp (x : MoreOp) : string :=", "disp_", ""), ("Definition fmt_MoreOp : Display MoreOp := fun x f =>", "fmt_", " f")):
    o += ["", head, "  match x with"]
    for n in more: o.append("  | More_%s op => %s%s op%s" % (n, pre, n, post))
    o.append("  end.")
o += ["", "Definition eq_MoreOp (a b : MoreOp) : bool :=", "  match a, b with"]
for n in more: o.append("  | More_%s x, More_%s y => eq_%s x y" % (n, n, n))
o += ["  | _, _ => false", "  end.", ""]
write("MoreOps.v", "\n".join(o))

# ---------------------------------------------------------------- Debug.v (derived Debug)
NEWTYPES = {"OpId", "ResultId", "SourceVersion", "MemberIndex", "Line", "Column"}
def dbg_of(t):
    t = t.strip()
    m = re.match(r"Vec<(.*)>$", t)
    if m: return "(dbg_Vec %s)" % dbg_of(m.group(1))
    m = re.match(r"Option<(.*)>$", t)
    if m: return "(dbg_Option %s)" % dbg_of(m.group(1))
    if t in ("u32", "u16", "u8"): return "DNumber"
    if t in NEWTYPES: return "dbg_" + t
    if t in ("LitString", "String") or "str" in t: return "DString"
    if t == "bool": return "DBool"
    if t == "LitBytes": return "(dbg_Vec DNumber)"
    if t == "ExtInstBox": return "DExtInstBox"
    return "dbg_" + t
def dbg_head(t):
    return "Definition dbg_%s (x : %s) : dtree :=" % (t, t + " E" if t in PARAM else t)
def emit_enum_dbg(f, name, o, prefix=True):
    vs, a, b = parse_enum(f, name)
    o.append(cite(f, a - 1, b))
    o.append(dbg_head(name))
    o.append("  match x with")
    p = name + "_" if prefix else ""
    for v, args in vs:
        xs = ["x%d" % k for k in range(len(args))]
        o.append("  | %s => %s" % (" ".join([p + v] + xs), "DName %s" % cq(v) if not args else
                 "DTuple %s [%s]" % (cq(v), "; ".join("%s %s" % (dbg_of(t), x) for t, x in zip(args, xs)))))
    o += ["  end.", ""]
def emit_struct_dbg(f, name, o):
    fs, a, b = parse_struct(f, name)
    o.append(cite(f, a - 1, b))
    o.append(dbg_head(name))
    o.append("  DName %s." % cq(name) if not fs else
             "  DStruct %s [%s]." % (cq(name), "; ".join("(%s, %s (%s_%s x))" % (cq(n), dbg_of(t), name, n) for n, t in fs)))
    o.append("")
o = [HDR + "From Verif Require Import Base Types Ops ReadErr Groups DebugBase.", "Local Open Scope string_scope.", "",
     "(** derive(Debug), type by type: the calls of the builders of core::fmt as trees. *)", "Section Debug.", "Context {E : Type}.",
     "Local Notation dtree := (dtree E).", "Local Notation DNumber := (DNumber (E := E)).", "Local Notation DString := (DString (E := E)).",
     "Local Notation DBool := (DBool (E := E)).", ""]
for n in ["OpId", "ResultId", "SourceVersion", "MemberIndex"]:
    i = find_line("types", r"pub struct %s\(" % n)
    o += [cite("types", i, i + 1), "Definition dbg_%s (x : %s) : dtree := DTuple %s [DNumber x]." % (n, n, cq(n)), ""]
o += ["(* src/spv/types.rs:29-31 *)",
      'Definition dbg_Version (x : Version) : dtree := DTuple "Version" [DNumber (Version_0 x); DNumber (Version_1 x)].', ""]
for e in ENUMS: emit_enum_dbg("types", e, o)
for s in STRUCTS: emit_struct_dbg("types", s, o)
for e in LATE_ENUMS: emit_enum_dbg("types", e, o)
for n in ops: emit_struct_dbg("op", n, o)
emit_enum_dbg("raw", "Core", o)
emit_struct_dbg("raw", "RawModule", o)
emit_enum_dbg("raw", "ReadError", o, False)
for g in GROUPS: emit_enum_dbg("logical", g, o)
for n in ["FunctionDeclaration", "BasicBlock", "FunctionDefinition", "LogicalModule"]: emit_struct_dbg("logical", n, o)
o += ["End Debug.", ""]
write("Debug.v", "\n".join(o))

# ---------------------------------------------------------------- PlainOps.v
def parse_any(name):
    """a struct of op.rs, with fields 0, 1, ... if it is a tuple; True if it is one"""
    i = find_line("op", r"pub struct %s\b" % name)
    if re.match(r"pub struct \w+(;| \{)", S["op"][i]): return parse_struct("op", name) + (False,)
    j = i
    while not S["op"][j].rstrip().endswith(";"): j += 1
    body = " ".join(l.strip() for l in S["op"][i:j+1])
    body = re.match(r"pub struct \w+\((.*)\);$", body).group(1)
    fs = [x.strip() for x in re.split(r"pub ", body)[1:]]
    return [(str(k), t.rstrip(", ")) for k, t in enumerate(fs)], i + 1, j + 1, True
def pair(t):
    m = re.match(r"\(([^,()]*), ([^,()]*)\)$", t.strip())
    return m and m.groups()
def with_pairs(f, comb):
    def go(t):
        t = t.strip()
        m = re.match(r"(Vec|Option)<(.*)>$", t)
        if m and pair(m.group(2)): return "(%s%s %s)" % (comb, m.group(1), go(m.group(2)))
        p = pair(t)
        return "(%sPair %s %s)" % (comb, go(p[0]), go(p[1])) if p else f(t)
    return go
def plain_ty(t):
    t = t.strip()
    m = re.match(r"(Vec|Option)<(.*)>$", t)
    if m: return "(%s %s)" % ({"Vec": "list", "Option": "option"}[m.group(1)], plain_ty(m.group(2)))
    p = pair(t)
    return "(%s * %s)" % (plain_ty(p[0]), plain_ty(p[1])) if p else coq_ty(t)
NEWTYPES |= {"ScopeId", "MemorySemanticsId"}
plain_eq = with_pairs(lambda t: "N.eqb" if t in NEWTYPES else eq_of(t), "eq_")
plain_dbg = with_pairs(dbg_of, "dbg_")
alln = [re.match(r"pub struct (\w+)", l).group(1) for l in S["op"] if l.startswith("pub struct ")]
plainops = [n for n in alln if n not in ops and n not in more]
o = [HDR + "From Verif Require Import Base Types EqBase Equality DebugBase Debug.", "Local Open Scope string_scope.", "",
     "(** Op structs that can neither be read nor printed with Display: data, derived equality and derived Debug. *)", "",
     "(* PartialEq and Debug of (A, B), for src/spv/op.rs and src/spv/types.rs *)",
     "Definition eq_Pair {A B} (eqA : A -> A -> bool) (eqB : B -> B -> bool) (a b : A * B) : bool := eqA (fst a) (fst b) && eqB (snd a) (snd b).",
     'Definition dbg_Pair {E A B} (dbgA : A -> dtree E) (dbgB : B -> dtree E) (x : A * B) : dtree E := DTuple "" [dbgA (fst x); dbgB (snd x)].', ""]
for n in ["ScopeId", "MemorySemanticsId"]:
    i = find_line("types", r"pub struct %s\(" % n)
    o += ["(* src/spv/types.rs:%d-%d.  Newtype of u32, modelled by its number. *)" % (i, i + 1), "Definition %s := N." % n,
          "Definition dbg_%s {E} (x : %s) : dtree E := DTuple %s [DNumber x]." % (n, n, cq(n)), ""]
def emit_record(f, n, fs, a, b, o):
    o += [cite(f, a, b), "Record %s : Type := Build_%s {%s}." % (n, n, ";".join(" %s_%s : %s" % (n, k, plain_ty(t)) for k, t in fs) + (" " if fs else ""))]
    o += ["Definition eq_%s (a b : %s) : bool := %s." % (n, n, conj(["%s (%s_%s a) (%s_%s b)" % (plain_eq(t), n, k, n, k) for k, t in fs]))]
def emit_record_dbg(n, fs, tup, o):
    o += ["Definition dbg_%s {E} (x : %s) : dtree E := %s." % (n, n,
      "DName %s" % cq(n) if not fs else
      "DTuple %s [%s]" % (cq(n), "; ".join("%s (%s_%s x)" % (plain_dbg(t), n, k) for k, t in fs)) if tup else
      "DStruct %s [%s]" % (cq(n), "; ".join("(%s, %s (%s_%s x))" % (cq(k), plain_dbg(t), n, k) for k, t in fs))), ""]
emit_enum("types", "GroupOperation", o); emit_enum_eq("types", "GroupOperation", o)
oo = []; emit_enum_dbg("types", "GroupOperation", oo)
o += [x.replace("dbg_GroupOperation (", "dbg_GroupOperation {E} (").replace(": dtree :=", ": dtree E :=") for x in oo]
fs, a, b = parse_struct("types", "ImageOperands")
emit_record("types", "ImageOperands", fs, a, b, o); emit_record_dbg("ImageOperands", fs, False, o)
for n in plainops:
    fs, a, b, tup = parse_any(n)
    emit_record("op", n, fs, a, b, o); emit_record_dbg(n, fs, tup, o)
o += ["(** Which of these types of src/spv/op.rs and src/spv/types.rs: a way to speak about them all. *)", "Inductive PlainType : Type :="]
for n in plainops: o.append("| Type_%s" % n)
o[-1] += "."
for head, f in (("Definition PlainValue (T : PlainType) : Type :=", ""), ("Definition eq_Plain (T : PlainType) : PlainValue T -> PlainValue T -> bool :=", "eq_"),
                ("Definition dbg_Plain {E} (T : PlainType) : PlainValue T -> dtree E :=", "dbg_")):
    o += ["", head, "  match T with"]
    for n in plainops: o.append("  | Type_%s => %s%s" % (n, f, n))
    o.append("  end.")
o.append("")
write("PlainOps.v", "\n".join(o))

# ---------------------------------------------------------------- DebugOps.v
o = [HDR + "From Verif Require Import Base Types DebugBase Debug MoreOps.", "Local Open Scope string_scope.", "",
     "(** derive(Debug) of the op structs of MoreOps. *)", "Section DebugOps.", "Context {E : Type}.",
     "Local Notation dtree := (dtree E).", ""]
for n in ["Line", "Column"]:
    i = find_line("types", r"pub struct %s\(" % n)
    o += [cite("types", i, i + 1), "Definition dbg_%s (x : %s) : dtree := DTuple %s [DNumber x]." % (n, n, cq(n)), ""]
for e in ["SamplerAddressingMode", "SamplerParam", "SamplerFilterMode"]: emit_enum_dbg("types", e, o)
for n in more: emit_struct_dbg("op", n, o)
o += ["Definition dbg_MoreOp (x : MoreOp) : dtree :=", "  match x with"]
for n in more: o.append("  | More_%s op => dbg_%s op" % (n, n))
o += ["  end.", "End DebugOps.", ""]
write("DebugOps.v", "\n".join(o))
