#!/usr/bin/env python3
"""Rewrite the last section of DESIGN.md: what Print Assumptions lists for each
property theorem.  Needs the compiled files in rocq/theories."""
import glob, os, re, subprocess, tempfile
root = os.path.dirname(os.path.dirname(os.path.abspath(__file__)))
theories = os.path.join(root, "rocq", "theories")
names = []
for f in sorted(glob.glob(os.path.join(theories, "P_*.v"))):
    mod = os.path.basename(f)[:-2]
    names += [(mod, t) for t in re.findall(r"^Theorem (C\d\d\w*)", open(f).read(), re.M)]
names.sort(key=lambda x: x[1][:3])
src = "From Coq Require Import Strings.String.\nOpen Scope string_scope.\n"
src += "".join("Require Verif.%s.\n" % m for m in sorted({m for m, _ in names}))
for m, t in names:
    src += 'Check "@%s".\nPrint Assumptions Verif.%s.%s.\n' % (t, m, t)
with tempfile.TemporaryDirectory() as d:
    open(os.path.join(d, "pa.v"), "w").write(src)
    out = subprocess.run(["coqc", "-Q", theories, "Verif", "pa.v"], cwd=d, check=True,
                         stdout=subprocess.PIPE, text=True).stdout
ass = {}
for part in out.split('"@')[1:]:
    name, rest = part.split('"', 1)
    ass[name] = " ".join(rest.split(": string", 1)[1].split())
design = os.path.join(root, "DESIGN.md")
head = open(design).read().split("## Print Assumptions\n")[0]
table = "## Print Assumptions\n\n| property | file | theorem | listed |\n|---|---|---|---|\n"
for m, t in names:
    table += "| %s | %s | %s | %s |\n" % (t[:3], m, t, ass[t])
open(design, "w").write(head + table)
print(len(names), "theorems;", sorted(set(ass.values())))
