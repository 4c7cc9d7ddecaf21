#!/usr/bin/env python3
"""Compile every rocq/theories/*Props.v (after make), collect what Print Assumptions
lists for each theorem, and write it into DESIGN.md between the markers
<!-- assumptions --> and <!-- /assumptions -->."""
import re, pathlib, subprocess, collections, concurrent.futures as cf
root = pathlib.Path(__file__).resolve().parent.parent
th = root / "rocq" / "theories"
pathlib.Path("/tmp/asm").mkdir(exist_ok=True)
def one(f):
    src = f.read_text()
    names = re.findall(r"^Print Assumptions\s+(\w+)", src, re.M)
    out = subprocess.run(["coqc", "-Q", str(th), "Verif", "-o", f"/tmp/asm/{f.stem}.vo", str(f)],
                         capture_output=True, text=True)
    if out.returncode: raise SystemExit(f"{f.name}: {out.stderr[:500]}")
    chunks = [c for c in re.split(r"(?=^Closed under|^Axioms:)", out.stdout, flags=re.M) if c.startswith(("Closed", "Axioms:"))]
    if len(chunks) != len(names): raise SystemExit(f"{f.name}: {len(chunks)} answers for {len(names)} questions")
    asked = set(names)
    thms = set(re.findall(r"^(?:Theorem)\s+(\w+)", src, re.M))
    if thms - asked: raise SystemExit(f"{f.name}: no Print Assumptions for {thms - asked}")
    return f.stem, [(n, () if c.startswith("Closed") else tuple(sorted("Classical_Prop.classic" if a == "classic" else a for a in re.findall(r"^(\S+)\s*(?::|$)", c.split("\n", 1)[1], re.M)))) for n, c in zip(names, chunks)]
with cf.ThreadPoolExecutor(3) as ex:
    res = list(ex.map(one, sorted(th.glob("*Props.v"))))
by = collections.OrderedDict()
for stem, l in res:
    for n, ax in l: by.setdefault(ax, collections.OrderedDict()).setdefault(stem, []).append(n)
L = []
for ax in sorted(by, key=lambda a: (len(a), a)):
    k = sum(len(v) for v in by[ax].values())
    L.append(("**Closed under the global context (no axioms)**" if not ax else "**" + ", ".join(f"`{a}`" for a in ax) + "**") + f" - {k} theorems:")
    L.append("")
    for stem, ns in by[ax].items(): L.append(f"* {stem}: " + ", ".join(ns))
    L.append("")
d = root / "DESIGN.md"
s = d.read_text()
a, rest = s.split("<!-- assumptions -->", 1)
_, b = rest.split("<!-- /assumptions -->", 1)
d.write_text(a + "<!-- assumptions -->\n" + "\n".join(L) + "<!-- /assumptions -->" + b)
print({ax: sum(len(v) for v in by[ax].values()) for ax in by})
