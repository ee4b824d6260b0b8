#!/usr/bin/env python3
"""Writes ASSUMPTIONS.md: the answer of Print Assumptions for every property theorem.
Run after a build (needs the .vo files)."""
import glob, os, re, subprocess
root = os.path.join(os.path.dirname(os.path.abspath(__file__)), "..", "rocq")
groups = {}
for f in sorted(glob.glob(os.path.join(root, "theories", "Prop*.v"))):
    names = re.findall(r"^Print Assumptions ([\w']+)\.", open(f).read(), re.M)
    out = subprocess.run(["coqc", "-Q", "theories", "Verif", "theories/" + os.path.basename(f)], cwd=root, capture_output=True, text=True, check=True).stdout
    blocks = re.split(r"(?=^Axioms:|^Closed under)", out, flags=re.M)[1:]
    assert len(names) == len(blocks), (f, len(names), len(blocks))
    for n, b in zip(names, blocks):
        ax = tuple(sorted(re.findall(r"^([\w']+(?:\.[\w']+)+)\s*(?::|$)", b, re.M)))
        groups.setdefault(ax, []).append(n)
with open(os.path.join(root, "..", "ASSUMPTIONS.md"), "w") as o:
    o.write("# Assumptions of the property theorems\n\nThe answers of `Print Assumptions`, written by `tools/gen_assumptions.py`.\n")
    for ax, names in sorted(groups.items(), key=lambda g: (len(g[0]), g[0])):
        o.write("\n## " + (", ".join("`%s`" % a for a in ax) if ax else "Closed under the global context") + "\n\n")
        o.write(", ".join(sorted(names, key=lambda n: (int(n[1:3]), n))) + "\n")
print({k: len(v) for k, v in groups.items()})
