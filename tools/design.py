#!/usr/bin/env python3
"""Fill the generated part of DESIGN.md: the table of properties, the findings and
what Print Assumptions lists for each theorem.  Needs a built rocq/ tree."""
import glob, json, os, re, subprocess, sys, tempfile
from concurrent.futures import ThreadPoolExecutor

ROOT = os.path.dirname(os.path.dirname(os.path.abspath(__file__)))
TH = os.path.join(ROOT, "rocq", "theories")
MARK = "<!-- generated by tools/design.py from here -->"


def assumptions(f):
    src = open(f).read()
    names = re.findall(r"^Print Assumptions (\S+)\.", src, re.M)
    with tempfile.TemporaryDirectory() as d:
        out = subprocess.run(["coqc", "-R", TH, "Verif", "-o", os.path.join(d, os.path.basename(f) + "o"), f],
                             capture_output=True, text=True)
    if out.returncode:
        sys.exit(f + "\n" + out.stderr)
    blocks = re.findall(r"^(Closed under the global context|Axioms:\n(?:(?!Closed under|Axioms:).*\n?)*)",
                        out.stdout, re.M)
    assert len(blocks) == len(names), (f, len(blocks), len(names))
    res = {}
    for n, b in zip(names, blocks):
        res[n] = tuple(sorted(re.findall(r"^([A-Za-z_][\w.']*)\s*(?::|$)", b, re.M))) if b.startswith("Axioms") else ()
        res[n] = tuple(a for a in res[n] if a != "Axioms")
    return os.path.basename(f), res


def main():
    props = [json.loads(l) for l in open(os.path.join(ROOT, "properties.jsonl"))]
    claims = {c["property"]: c for c in json.load(open(os.path.join(ROOT, "MANIFEST.json")))["claims"]}
    with ThreadPoolExecutor(3) as ex:
        per = dict(ex.map(assumptions, sorted(glob.glob(os.path.join(TH, "Prop_*.v")))))
    ax = {n: a for r in per.values() for n, a in r.items()}
    where = {n: f for f, r in per.items() for n in r}
    names = sorted({x for a in ax.values() for x in a})
    short = {x: "A%d" % (i + 1) for i, x in enumerate(names)}
    L = [MARK, "", "## Axioms", ""]
    L.append("Every axiom below is declared by Coq's standard library; nothing else appears in any")
    L.append("`Print Assumptions` of a property theorem.")
    L.append("")
    for x in names:
        L.append("* %s = `%s`" % (short[x], x))
    L += ["", "## Properties, theorems and their assumptions", "",
          "One line per property: status, the code it is about, its theorems (with the file they are",
          "in) and after each theorem what `Print Assumptions` lists (nothing written: closed under",
          "the global context).", ""]
    for p in props:
        c = claims[p["id"]]
        th = ", ".join("`%s`%s" % (t, " [%s]" % " ".join(short[a] for a in ax[t]) if ax.get(t) else "")
                       for t in c["theorems"])
        files = ", ".join(sorted({where[t] for t in c["theorems"] if t in where}))
        anchors = "; ".join(p["anchors"]) if isinstance(p["anchors"], list) else str(p["anchors"])
        L.append("* **%s** %s (%s). Code: %s. %s: %s" % (p["id"], p["title"], c["status"], anchors, files, th))
    L += ["", "## Findings: properties the code violates", "",
          "Each is proved by the `_refuted` theorem of that property.", ""]
    for p in props:
        c = claims[p["id"]]
        if any("refuted" in t for t in c["theorems"]):
            L.append("* **%s** %s. %s" % (p["id"], p["title"], c["note"]))
    missing = [t for c in claims.values() for t in c["theorems"] if t not in ax]
    if missing:
        sys.exit("no Print Assumptions for %s" % missing)
    f = os.path.join(ROOT, "DESIGN.md")
    head = open(f).read().split(MARK)[0].rstrip()
    open(f, "w").write(head + "\n\n" + "\n".join(L) + "\n")
    print(len(props), "properties,", len(ax), "theorems,", len(names), "axioms")


main()
