#!/usr/bin/env python3
"""Turns the repository's five test modules (src/tests/*.spv, *.dis) into Fixtures.v.
usage: fixtures.py REPO > Fixtures.v"""
import sys, os
repo = sys.argv[1]
names = ["noop", "write_multiply", "cond_trig", "nest_if", "loop_simple"]
print('''(* GENERATED by tools/fixtures.py from /repo/src/tests. *)
(** The repository's own test modules run through the model (src/tests/mod.rs:110-156).
    These are tests of the model's fidelity, not proofs of properties: each module is read,
    printed (and compared with the expected text), validated and its control flow found. *)
From Verif Require Import Base Types Ops ReadErr ReadBase ExtSet ReadOps Reader Groups Validate
  DisplayBase DisplayTypes DisplayOps DisplayModule Glsl450 ControlFlow DisplayFlow.

(* bytes of a module given as little-endian words *)
Definition bytes_of_words (l : list N) : list ascii :=
  flat_map (fun w => map (fun k => ascii_of_N (N.modulo (N.shiftr w k) 256)) [0; 8; 16; 24]%N) l.

(* src/tests/mod.rs:8-11 *)
Definition read (data : list ascii) := read_module data [InstSet].

(* src/tests/mod.rs:121-129 *)
Definition disassemble_ok (data : list ascii) (expected : string) : bool :=
  match read data with Ok m => String.eqb (disp_RawModule disp_Inst m) expected | _ => false end.

(* src/tests/mod.rs:131-136 *)
Definition logical_pass_ok (data : list ascii) : bool :=
  match read data with
  | Ok m => match validate m with Ok _ => true | _ => false end
  | _ => false
  end.

(* src/tests/mod.rs:138-147 *)
Definition cfa_ok (data : list ascii) : bool :=
  match read data with
  | Ok m =>
      match validate m with
      | Ok l =>
          forallb (fun f =>
            let n := List.length (FunctionDefinition_blocks f) in
            match find_control_flow (n * (n + 2) + 1) f with
            | Ok c => match disp_ControlFlowFunctionPrinter disp_Inst f c with Ok _ => true | _ => false end
            | _ => false
            end) (LogicalModule_function_definitions l)
      | _ => false
      end
  | _ => false
  end.
''')
for n in names:
    d = open(os.path.join(repo, "src/tests", n + ".spv"), "rb").read()
    t = open(os.path.join(repo, "src/tests", n + ".dis")).read()
    assert len(d) % 4 == 0
    ws = [int.from_bytes(d[i:i+4], "little") for i in range(0, len(d), 4)]
    print("(* src/tests/%s.spv *)" % n)
    print("Definition %s_spv : list ascii := bytes_of_words [" % n)
    lines = ["; ".join(str(w) for w in ws[i:i+10]) for i in range(0, len(ws), 10)]
    print("  " + ";\n  ".join(lines) + "]%N.")
    print("(* src/tests/%s.dis *)" % n)
    print('Definition %s_dis : string :=\n"%s"%%string.\n' % (n, t.replace('"', '""')))
    for chk, arg in (("disassemble_ok", " %s_dis" % n), ("logical_pass_ok", ""), ("cfa_ok", "")):
        print("Example %s_%s : %s %s_spv%s = true." % (n, chk, chk, n, arg))
        print("Proof. vm_compute. reflexivity. Qed.")
    print()
