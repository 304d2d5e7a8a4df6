"""Apply one edit to a scratch copy of the model and report which property
theorems no longer stand.

usage: mutate.py FILE.v 'old text' 'new text' [--claim C01] [--desc text] [--log]

Every lemma whose proof breaks is replaced by Admitted in the scratch copy, so
that the effect can be followed to the property theorems: a property theorem
`fails` when its own proof breaks or when Print Assumptions shows that it rests
on one of those broken lemmas.
"""
import argparse, json, os, re, shutil, subprocess, sys, tempfile, time

SRC = os.environ.get("VERIF_SRC", "/verif/rocq")


def files():
    return [l.strip() for l in open(f"{SRC}/_CoqProject") if l.strip().endswith(".v")]


def requires(text):
    out = set()
    for m in re.finditer(r"Require (?:Import|Export)([^.]*(?:\.[A-Za-z][^.\s]*)*)\.\s", text):
        pass
    for m in re.finditer(r"Verif\.(\w+)", text):
        out.add(m.group(1))
    return out


def run(cwd, f, tmo):
    p = subprocess.run(["timeout", str(tmo), "coqc", "-q", "-time", "-Q", "theories", "Verif", f],
                       cwd=cwd, capture_output=True, text=True)
    return p.returncode, p.stdout, p.stderr


HEAD = re.compile(r"^\s*(?:Local |Global |#\[\w+\] )?(Lemma|Theorem|Example|Corollary|Fact|Remark|Instance|Definition|Fixpoint)\s+([\w']+)", re.M)


def break_lemma(path, pos, admitted):
    """Admit the proof enclosing character offset pos; return its name or None."""
    text = open(path).read()
    b = text.encode()
    cpos = len(b[:pos].decode(errors="ignore"))
    heads = [m for m in HEAD.finditer(text) if m.start() <= cpos + 2]
    # the failing sentence starts after pos: skip blanks and comments
    rest = text[cpos:]
    m2 = HEAD.match(re.sub(r"^(\s|\(\*.*?\*\))*", "\n", rest, flags=re.S) if False else rest)
    skip = re.match(r"(?:\s|\(\*(?:.|\n)*?\*\))*", rest).end()
    m2 = HEAD.match(text, cpos + skip)
    if m2:
        head = m2
        whole = True
    else:
        head = heads[-1] if heads else None
        whole = False
    if head is None:
        return None
    name = head.group(2)
    end = re.compile(r"\b(Qed|Defined|Admitted)\.").search(text, head.start())
    if not end:
        return None
    body = text[head.start():end.end()]
    pm = re.search(r"\bProof\b[^.]*\.", body)
    if whole or not pm:
        # the statement itself no longer typechecks: drop it
        new = f"(* STATEMENT BROKEN {name} *)"
        # comments inside are fine since the text is removed
        admitted.append((name, "statement"))
    else:
        new = body[:pm.start()] + "Admitted."
        admitted.append((name, "proof"))
    open(path, "w").write(text[:head.start()] + new + text[end.end():])
    return name


def main():
    ap = argparse.ArgumentParser()
    ap.add_argument("file")
    ap.add_argument("old")
    ap.add_argument("new")
    ap.add_argument("--claim", default="")
    ap.add_argument("--desc", default="")
    ap.add_argument("--log", action="store_true")
    ap.add_argument("--defn", default="")
    ap.add_argument("--tightened", default="")
    ap.add_argument("--tmo", type=int, default=150)
    a = ap.parse_args()
    work = tempfile.mkdtemp(prefix="mut_", dir="/tmp")
    cwd = work + "/rocq"
    shutil.copytree(SRC, cwd)
    target = f"{cwd}/theories/{a.file}"
    t = open(target).read()
    if t.count(a.old) != 1:
        print("OLD TEXT OCCURS", t.count(a.old), "TIMES")
        shutil.rmtree(work)
        sys.exit(2)
    at = t.index(a.old)
    defs = [m.group(2) for m in HEAD.finditer(t) if m.start() <= at]
    defn = a.defn or (defs[-1] if defs else "?")
    open(target, "w").write(t.replace(a.old, a.new))
    dirty = set()
    broken, failed, passed = [], [], []
    notes = []
    for f in files():
        mod = os.path.basename(f)[:-2]
        text = open(f"{cwd}/{f}").read()
        if not (mod == a.file[:-2] or requires(text) & dirty):
            continue
        dirty.add(mod)
        admitted = []
        for it in range(60):
            rc, out, err = run(cwd, f, a.tmo)
            if rc == 0:
                break
            pos = [int(m.group(1)) for m in re.finditer(r"^Chars \d+ - (\d+) ", out, re.M)]
            # position of the first sentence that did not finish
            last = max(pos) if pos else 0
            m = re.search(r"characters \d+-\d+", err)
            nm = break_lemma(f"{cwd}/{f}", last, admitted)
            if nm is None or (mod == a.file[:-2] and not mod.startswith("P")):
                notes.append(f"{mod}: model itself does not compile: {err.strip()[-300:]}")
                print("\n".join(notes))
                shutil.rmtree(work)
                sys.exit(3)
        broken += [n for n, _ in admitted]
        if mod.startswith("Properties"):
            text = open(f"{SRC}/{f}").read()
            names = re.findall(r"^Theorem (C\d+_\w+)", text, re.M)
            own = {n for n, _ in admitted}
            now = open(f"{cwd}/{f}").read()
            pa = re.findall(r"^Print Assumptions (\w+)\.", now, re.M)
            chunks = re.findall(r"^(Axioms:\n(?:.*\n)*?(?=Chars)|Closed under the global context)", out, re.M)
            for n, c in zip(pa, chunks):
                deps = [x for x in broken if re.search(rf"(^|[\s.]){re.escape(x)}\b\s*\n?\s*:", c, re.M)]
                if n in own or deps:
                    failed.append(n)
                else:
                    passed.append(n)
            for n in names:
                if n in own and n not in failed:
                    failed.append(n)
    print("DEFN", defn)
    print("BROKEN LEMMAS", broken)
    print("FAILED", failed)
    if a.log:
        rec = {"definition": f"{a.file[:-2]}.{defn}", "edit": a.desc or f"{a.old} -> {a.new}",
               "claim": a.claim, "failed": failed,
               "tightened": [x for x in a.tightened.split(",") if x]}
        with open("/verif/seeded/LOG.jsonl", "a") as fh:
            fh.write(json.dumps(rec) + "\n")
    shutil.rmtree(work)


main()
