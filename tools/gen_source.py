#!/usr/bin/env python3
"""Copies the text of <pkg>/trie.go into rocq/theories/Source<Pkg>.v and that of internal/gen/triegen/print.go into SourcePrint.v, line by line."""
import sys
ROOT = "/repo"
for pkg, path in [(p, f"{p}/trie.go") for p in ["graphemes", "words", "sentences", "phrases"]] + [("print", "internal/gen/triegen/print.go")]:
    text = open(f"{ROOT}/{path}", "rb").read()
    assert text.endswith(b"\n") and all(c < 0x80 for c in text)
    lines = text.decode("ascii").split("\n")[:-1]
    cap = pkg.capitalize()
    out = [f"(** GENERATED by tools/gen_source.py: the text of {path}, {len(text)} bytes, one string for each line, in groups of a hundred lines. *)",
           "From Coq Require Import String List.", "Import ListNotations.", "Local Open Scope string_scope.", ""]
    names = []
    for i in range(0, len(lines), 100):
        n = f"lines_{i + 1}"; names.append(n)
        out.append(f"Definition {n} : list string := [")
        out.append(";\n".join('"' + l.replace('"', '""') + '"' for l in lines[i:i + 100]) + "].")
    out.append(f"\nDefinition {pkg}_lines : list string := List.concat [{'; '.join(names)}].")
    open(f"/verif/rocq/theories/Source{cap}.v", "w").write("\n".join(out) + "\n")
