#!/usr/bin/env python3
"""Turns the official Unicode 17 test vectors, as committed in /repo/<pkg>/unicode_test.go, into Coq lists.
Usage: gen_tests.py <pkg> > ../rocq/theories/Tests<Pkg>.v"""
import re, sys
pkg = sys.argv[1]
src = open(f"/repo/{pkg}/unicode_test.go", encoding="utf-8").read()
n = int(re.search(r"unicodeTests = \[(\d+)\]", src).group(1))
tests = []
for m in re.finditer(r"input:\s+\[\]byte\{([^}]*)\},\s+expected: \[\]\[\]byte\{(.*)\},\n", src):
    inp = [int(x, 16) for x in m.group(1).split(",") if x.strip()]
    exp = [[int(x, 16) for x in t.split(",")] for t in re.findall(r"\{([^}]*)\}", m.group(2))]
    assert sum(exp, []) == inp
    tests.append(exp)
assert len(tests) == n, (len(tests), n)
P = pkg.capitalize()
print(f"(** Generated by tools/gen_tests.py from /repo/{pkg}/unicode_test.go ({n} official test strings, Unicode 17):")
print("    the expected tokens of each test string.  Tests, not proofs; they check the transcription of the rules. *)")
print("From Verif Require Import Base.")
print("Local Open Scope N_scope.")
chunk = 200
names = []
for i in range(0, n, chunk):
    nm = f"tests_{pkg}_{i//chunk}"
    names.append(nm)
    print(f"Definition {nm} : list (list bytes) := [")
    print(";\n".join("[" + "; ".join("[" + ";".join(map(str, t)) + "]" for t in ts) + "]" for ts in tests[i:i+chunk]))
    print("].")
print(f"Definition tests_{pkg} : list (list bytes) := {' ++ '.join(names)}.")
