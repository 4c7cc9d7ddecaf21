#!/usr/bin/env python3
"""Split tools/<Name>.src into rocq/theories/<Name>Main.v (lemmas with proofs)
and rocq/theories/<Name>Props.v (theorems closed by `exact`, Print Assumptions,
examples).

In a .src file: `Theorem` blocks (up to Qed.) go to both files, `Lemma`,
`Definition`, `Ltac`... blocks only to Main, `Example` blocks only to Props, the
header (up to the line `(* BODY *)`) to both."""
import re, sys, pathlib
root = pathlib.Path(__file__).resolve().parent
th = root.parent / "rocq" / "theories"

def gen(name):
    src = (root / f"{name}.src").read_text()
    header, body = src.split("(* BODY *)\n", 1)
    blocks, cur, comment = [], [], []
    # a block ends at a line that is `Qed.` or ends with ` Qed.`, or for
    # definitions at a blank line
    paras = re.split(r"\n\s*\n", body.strip("\n"))
    i = 0
    out = []
    buf = ""
    for p in paras:
        buf = p if not buf else buf + "\n\n" + p
        code = re.sub(r"\(\*.*?\*\)", "", buf, flags=re.S).strip()
        if not code:
            out.append(("comment", buf)); buf = ""; continue
        kw = code.split()[0]
        if kw in ("Theorem", "Lemma", "Example"):
            if re.search(r"\b(Qed|Defined)\.\s*$", buf):
                out.append((kw, buf)); buf = ""
        else:
            out.append((kw, buf)); buf = ""
    if buf: raise SystemExit(f"unterminated block in {name}: {buf[:200]}")
    names = [re.search(r"Theorem\s+(\w+)", b).group(1) for k, b in out if k == "Theorem"]
    main = [header.rstrip()]
    props = [header.rstrip() + f"\nFrom Verif Require Import {name}Main."]
    def to_pf(text):
        for n in names:
            text = re.sub(rf"\b{n}\b", n + "_pf", text)
        return text
    for k, b in out:
        if k == "Theorem":
            n = re.search(r"Theorem\s+(\w+)", b).group(1)
            m = re.search(r"\nProof\.", b)
            stmt = b[:m.start()]
            main.append(to_pf(b).replace(f"Theorem {n}_pf", f"Lemma {n}_pf"))
            props.append(f"{stmt}\nProof. exact {n}_pf. Qed.\nPrint Assumptions {n}.")
        elif k == "Example":
            props.append(b)
        elif k == "comment":
            props.append(b)
        elif k in ("Notation", "Open", "Import", "Local"):
            main.append(b); props.append(b)
        else:
            main.append(to_pf(b))
    note = f"(* Generated from tools/{name}.src by tools/gen_props.py. *)\n"
    (th / f"{name}Main.v").write_text(note + "\n\n".join(main) + "\n")
    (th / f"{name}Props.v").write_text(note + "\n\n".join(props) + "\n")
    return names

for n in sys.argv[1:]:
    print(n, len(gen(n)), "theorems")
