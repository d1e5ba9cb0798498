#!/usr/bin/env python3
"""Write MANIFEST.json: every theorem Cnn_* of the Prop_*.v files, plus the notes below."""
import glob, json, os, re
root = os.path.join(os.path.dirname(__file__), "..")
notes = {
    "C12": "The set must be the first known one with the imported name; the id of the set is the id of an earlier import.",
    "C16": "The exact gate is proved; that only the 1.0 word passes is refuted.",
    "C17": "The exact decoding is proved; that every unknown flag is rejected is refuted.",
    "C19": "That ids are below the bound, as documented in the crate, is refuted.",
    "C20": "That word count zero is rejected is refuted.",
    "C34": "That ids are unique and targets exist is refuted.",
    "C39": "Both directions of the statement are proved; that only reachable blocks are named is refuted.",
    "C54": "Faithfulness is proved under the stated conditions; without them it is refuted.",
    "C46": "The bound and its exactness are proved; termination on every function is refuted.",
    "C76": "That the constituents of OpCompositeConstruct print as ids is refuted.",
    "C74": "That equality is symmetric for every user instruction type is refuted.",
    "C82": "Linear in the size of the chain, and in the blocks of written programs; linear in the blocks of every function is refuted.",
    "C103": "Exact work and quadratic bounds are proved; that the moves or the looks are linear in the blocks is refuted.",
    "C110": "The exact bound is proved; that a depth linear in the blocks suffices is refuted.",
    "C119": "Proved for every way in which read_module can end, for sets and instructions whose Drop does not panic; that duplicates go in the order of their imports is refuted.",
    "C120": "Proved for every way in which validate can end, for instructions whose Drop does not panic.",
    "C121": "Proved for every function and every answer; for the first block of a loop it is refuted.",
    "C122": "Proved for every function and every answer; for the first block of a loop it is refuted.",
    "C123": "Proved for every function that is understood; for the answers to other functions it is refuted.",
    "C124": "Proved; for chains that were not found for the function it is refuted.",
    "C125": "Proved; for sets that do not tell their instructions apart it is refuted.",
    "C126": "Proved about a copy of the reader that counts its steps and is shown to give the same results; without the number of sets, and with nine steps a word, it is refuted.",
    "C127": "Proved, with exact conditions; that the header of any construct in which a block stands dominates it is refuted.",
    "C128": "Proved; that functions can be appended to a module without definitions and become definitions, and that counting instructions suffices for lists that are not the start of an accepted one, is refuted.",
    "C129": "Proved; that every function that is understood is reducible is refuted.",
    "C130": "Proved; that functions keep their contents and that every order is accepted are refuted.",
    "C131": "Proved.",
    "C132": "Proved.",
    "C133": "Proved, with the counterexample that not every selection can be read.",
    "C134": "Proved, with the counterexample that files cannot always be put together. Putting together does not rename ids.",
    "C135": "Proved.",
    "C136": "Proved, with the counterexample that not every numbering can be read.",
    "C137": "Proved, with the counterexample that the reachable blocks are not enough.",
    "C138": "Proved.",
    "C139": "Proved.",
    "C118": "Proved in full for any hash function and any enlarging policy.",
    "C117": "Proved as an equivalence, with uniqueness; that every understood function comes from a program that uses each block once is refuted.",
    "C116": "Proved under the rules of the standard and the two further conditions of C114; the growth for a family of every size.",
    "C115": "Proved as an equivalence under the rules of the standard and the two further conditions of C114; that the rules alone suffice is refuted.",
    "C114": "Proved under the rules of the standard and two more conditions; that the rules alone make the search end is refuted.",
    "C111": "Proved for loops and two-armed selections; refuted for conditional exits, as the statement says.",
    "C93": "The exact relation is proved for written functions; that every function obeying the rules is understood is refuted.",
    "C95": "That different values always show differently is refuted for a precision of zero and for digits as fill characters.",
    "C94": "That a Vec of any item can be read is refuted for items of less than four bytes, and for items that take no words.",
    "C91": "That the structs follow the standard is proved except for five instructions, for which it is refuted; that every instruction has a struct is refuted for OpSpecConstantOp.",
    "C69": "Independence is proved for modules, chains, functions and errors; padding of an instruction's line is refuted; the exact effect on an instruction's operands is proved.",
}
thms = {}
for f in sorted(glob.glob(os.path.join(root, "rocq/theories/Prop_*.v"))):
    for name in re.findall(r"^Theorem (C\d\d\w*)", open(f).read(), re.M):
        thms.setdefault(name.split("_")[0], []).append(name)
claims = []
for line in open(os.path.join(root, "properties.jsonl")):
    pid = json.loads(line)["id"]
    names = thms.get(pid, [])
    if not names:
        print("missing", pid)
        continue
    status = "partial" if any(n.endswith("_partial") for n in names) else "proved"
    claims.append({"property": pid, "status": status, "theorems": names, "note": notes.get(pid, "")})
json.dump({"claims": claims}, open(os.path.join(root, "MANIFEST.json"), "w"), indent=1)
print(len(claims), "claims", sum(len(c["theorems"]) for c in claims), "theorems")
