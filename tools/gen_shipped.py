#!/usr/bin/env python3
"""Writes rocq/theories/Shipped.v: the particle and settings files of /repo/input as Coq lists of lines
(runs of equal lines are written with repeat)."""
import os, itertools
out = os.path.join(os.path.dirname(__file__), "..", "rocq", "theories", "Shipped.v")
def q(l): return '"' + l.replace('"', '""') + '"'
with open(out, "w") as f:
    f.write("(** * The particle and settings files in /repo/input, line by line (written by tools/gen_shipped.py) *)\n"
            "From Coq Require Import String List.\nImport ListNotations.\nOpen Scope string_scope.\nOpen Scope list_scope.\n")
    for case in ("dambreak", "hydrostatic"):
        for ext in ("prof", "csv", "vtu"):
            t = open(f"/repo/input/{case}/input.{ext}", newline="").read()
            assert t.endswith("\n") and "\r" not in t and all(ord(c) < 128 for c in t)
            lines = t[:-1].split("\n")
            f.write(f"\n(** input/{case}/input.{ext} *)\nDefinition {case}_{ext} : list string :=\n  concat [\n")
            blocks = []; cur = []
            for l, g in itertools.groupby(lines):
                n = len(list(g))
                if n > 8:
                    if cur: blocks.append("[" + ";\n     ".join(cur) + "]"); cur = []
                    blocks.append(f"repeat {q(l)} {n}")
                else: cur += [q(l)] * n
            if cur: blocks.append("[" + ";\n     ".join(cur) + "]")
            f.write("    " + ";\n    ".join(blocks) + "].\n")
    for case in ("dambreak", "hydrostatic"):
        t = open(f"/repo/input/{case}/settings.yml", newline="", encoding="utf-8").read()
        assert "\r" not in t and "\t" not in t
        lines = t.split("\n")
        f.write(f"\n(** input/{case}/settings.yml; the lines are separated by newlines, the last one " + ("is empty" if lines[-1] == "" else "has none") + f" *)\nDefinition {case}_yml : list string :=\n  [" + ";\n   ".join(map(q, lines)) + "].\n")
