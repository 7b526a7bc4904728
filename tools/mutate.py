"""Seeded-bug testing of the theorems.

usage: mutate.py MUTATIONS.json [--log]

Each mutation is {"file", "old", "new", "definition", "edit", "claim", "expect"}: in a scratch
copy of rocq/ the text `old` of theories/<file> is replaced by `new`, the copy is rebuilt, and
every proof that no longer goes through is replaced by Admitted so that the build
continues.  A property theorem counts as failed if it, or a lemma it rests on (by Print
Assumptions), had to be admitted.  With --log one line per mutation is appended to
seeded/LOG.jsonl.
"""
import json, os, re, subprocess, sys, shutil

ROOT = "/verif"
BASE = os.environ.get("MUT_BASE", ROOT + "/rocq")   # a built tree
SCRATCH = "/tmp/mut/rocq"
START = re.compile(r"^\s*(?:Local |Global )?(Theorem|Lemma|Corollary|Fact|Remark|Example|Proposition)\s+([\w']+)", re.M)

def make():
    p = subprocess.run("timeout 1500 make -j4", shell=True, cwd=SCRATCH, capture_output=True, text=True)
    return p.returncode, p.stdout + p.stderr

def admit(path, line):
    """Replace the proof around `line` by Admitted; return the lemma's name."""
    text = open(path).read()
    pos = sum(len(l) + 1 for l in text.split("\n")[: line - 1])
    eol = text.find("\n", pos); eol = len(text) if eol < 0 else eol
    best = None
    for m in START.finditer(text):
        if m.start() <= eol:
            best = m
        else:
            break
    if best is None:
        return None
    body = text[best.start():]
    e = re.search(r"\bQed\.|\bDefined\.|\bAdmitted\.", body)
    stmt_end = re.search(r"\bProof\b", body)
    if not e or not stmt_end or best.start() + e.end() < pos or e.group(0) == "Admitted.":
        return None
    new = body[: stmt_end.start()] + "Admitted." + body[e.end():]
    open(path, "w").write(text[: best.start()] + new)
    return best.group(2)

def assumptions():
    """property theorem -> names it assumes, from forced rebuild of Prop files"""
    out = {}
    for l in open(f"{SCRATCH}/_CoqProject"):
        l = l.strip()
        if "/Prop_" not in l:
            continue
        vo = l[:-2] + ".vo"      # not rebuilt: does not depend on the edited file
        if os.path.exists(f"{BASE}/{vo}") and os.path.getmtime(f"{BASE}/{vo}") == os.path.getmtime(f"{SCRATCH}/{vo}"):
            continue
        text = open(f"{SCRATCH}/{l}").read()
        names = re.findall(r"^Print Assumptions (\w+)", text, re.M)
        p = subprocess.run(f"timeout 900 coqc -Q theories Verif {l}", shell=True, cwd=SCRATCH, capture_output=True, text=True)
        chunks, cur = [], None
        for ln in p.stdout.split("\n"):
            if ln.startswith("Closed under the global context"):
                chunks.append(""); cur = None
            elif ln.startswith("Axioms:"):
                chunks.append(""); cur = len(chunks) - 1
            elif cur is not None:
                chunks[cur] += ln + "\n"
        if len(chunks) != len(names):
            print("WARNING", l, len(chunks), len(names), p.stderr[:500])
        for n, c in zip(names, chunks):
            out[n] = set(re.findall(r"^([\w.']+)", c, re.M))
    return out

def run(m, log):
    subprocess.run(f"rm -rf {SCRATCH} && mkdir -p /tmp/mut && cp -a {BASE} {SCRATCH}", shell=True, check=True)
    path = f"{SCRATCH}/theories/{m['file']}"
    text = open(path).read()
    if text.count(m["old"]) != 1:
        print("BAD MUTATION", m["definition"], "occurrences:", text.count(m["old"])); return
    open(path, "w").write(text.replace(m["old"], m["new"]))
    failed = []
    note = ""
    for _ in range(400):
        rc, out = make()
        if rc == 0:
            break
        e = re.search(r'File "\./(theories/[^"]+)", line (\d+)[^\n]*\n(?!Warning)', out)
        if not e:
            note = "no error position: " + out[-300:]; break
        name = admit(f"{SCRATCH}/{e[1]}", int(e[2]))
        if name is None:
            # error outside a proof
            note = f"error outside a proof: {e[1]}:{e[2]} " + out[out.find(e[0]):][:300]; break
        failed.append(name)
    props = []
    if rc == 0 and failed:
        for t, ax in assumptions().items():
            if t in failed or {a.split(".")[-1] for a in ax} & set(failed):
                props.append(t)
    print(f"{m['definition']}: {m['edit']}\n   lemmas: {failed[:12]}\n   theorems: {props} {note}")
    exp = m.get("expect", [])
    missing = [x for x in exp if not any(p.startswith(x) for p in props)]
    if not props and not note:
        print("   *** SURVIVED ***")
    elif missing and not note:
        print("   *** expected to fail but passed:", missing)
    if log:
        with open(f"{ROOT}/seeded/LOG.jsonl", "a") as f:
            f.write(json.dumps({"definition": m["definition"], "file": m["file"], "edit": m["edit"], "claim_broken": m["claim"],
                                "theorems_failed": props if not note else ["(build stops) " + note[:160]],
                                "lemmas_failed": failed, "theorems_tightened": m.get("tightened", [])}) + "\n")

if __name__ == "__main__":
    log = "--log" in sys.argv
    for m in json.load(open(sys.argv[1])):
        run(m, log)
