#!/usr/bin/env python3
"""Copies the text of the Go files into rocq/theories/CodeText.v, one string for each line."""
FILES = ["graphemes/splitfunc", "graphemes/iterator", "graphemes/ansi", "graphemes/ansi8", "words/splitfunc", "words/seek", "words/joiners", "words/iterator",
  "words/bleve_compat", "sentences/splitfunc", "sentences/seek", "sentences/iterator", "phrases/splitfunc", "phrases/seek", "phrases/iterator",
  "internal/iterators/iterator", "internal/iterators/filter/filter",
  "graphemes/reader", "words/reader", "sentences/reader", "phrases/reader"]
out = ["(** GENERATED by tools/gen_code.py: the text of the Go files, one string for each line. *)",
       "From Coq Require Import String List.", "Import ListNotations.", "Local Open Scope string_scope.", ""]
for f in FILES:
    text = open(f"/repo/{f}.go", "rb").read().decode("utf-8"); assert text.endswith("\n") and "\r" not in text
    name = "file_" + f.replace("internal/iterators/", "internal/").replace("/", "_")
    out.append(f"(** {f}.go, {len(text.encode())} bytes *)\nDefinition {name} : list string := [")
    out.append(";\n".join('"' + l.replace('"', '""') + '"' for l in text.split("\n")[:-1]) + "].\n")
open("/verif/rocq/theories/CodeText.v", "w").write("\n".join(out))
