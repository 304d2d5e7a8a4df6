"""Regenerate the generated sections of DESIGN.md: the functions of /repo that
are modelled and not modelled (from the line citations in M_*.v), and what Print
Assumptions lists for each theorem.  Needs the built files."""
import ast
import glob
import os
import re
import subprocess
import tempfile

REPO = "/repo/welleng"
TH = "/verif/rocq/theories"


def functions(path):
    """(qualified name, first, last) of every function, nested ones folded in."""
    out = []

    def walk(node, prefix):
        for n in ast.iter_child_nodes(node):
            if isinstance(n, ast.ClassDef):
                walk(n, prefix + n.name + ".")
            elif isinstance(n, (ast.FunctionDef, ast.AsyncFunctionDef)):
                body = n.body
                first = n.lineno
                if ast.get_docstring(n) and len(body) > 1:
                    first = body[1].lineno
                out.append((prefix + n.name, n.lineno, first, n.end_lineno))

    walk(ast.parse(open(path).read()), "")
    return out


def citations():
    cites = {}
    for p in sorted(glob.glob(TH + "/M_*.v")) + [TH + "/NumPy.v", TH + "/Base.v"]:
        src = open(p).read()
        for c in re.finditer(r"\(\*.*?\*\)", src, re.S):
            text = re.sub(r"\s+", " ", c.group(0))
            for m in re.finditer(r"([\w/]+\.py):? ?(\d+(?:-\d+)?(?:, ?(?:and )?\d+(?:-\d+)?)*)", text):
                name = m.group(1).split("welleng/")[-1]
                for r in re.finditer(r"(\d+)(?:-(\d+))?", m.group(2)):
                    a = int(r.group(1))
                    cites.setdefault(name, []).append((a, int(r.group(2) or a)))
    return cites


def coverage():
    cites = citations()
    rows = []
    for root, _, files in os.walk(REPO):
        for f in sorted(files):
            if not f.endswith(".py"):
                continue
            path = os.path.join(root, f)
            rel = os.path.relpath(path, REPO)
            lines = set()
            for key, rs in cites.items():
                if key == rel or (key == f and "/" not in key):
                    for a, b in rs:
                        lines |= set(range(a, b + 1))
            full, part, none = [], [], []
            for q, start, a, b in functions(path):
                body = set(range(a, b + 1))
                share = len(body & lines) / len(body)
                if share >= 0.75:
                    full.append(q)
                elif share > 0.1:
                    part.append((q, share))
                elif start in lines and share > 0:
                    part.append((q, share))
                else:
                    none.append(q)
            rows.append((rel, full, part, none))
    return sorted(rows)


def assumptions():
    """axiom set -> theorem names"""
    groups = {}
    tmp = tempfile.mkdtemp()
    for p in sorted(glob.glob(TH + "/Properties_*.v")):
        names = re.findall(r"^Print Assumptions (\w+)\.", open(p).read(), re.M)
        out = subprocess.run(["coqc", "-Q", TH, "Verif", "-o", os.path.join(tmp, os.path.basename(p) + "o"), p], capture_output=True, text=True).stdout
        blocks = re.split(r"^(?=Axioms:|Closed under)", out, flags=re.M)[1:]
        assert len(blocks) == len(names), (p, len(blocks), len(names))
        for n, b in zip(names, blocks):
            ax = tuple(re.findall(r"^([A-Za-z]\w*(?:\.\w+)+)", b, re.M)) if b.startswith("Axioms") else ()
            groups.setdefault(ax, []).append(n)
    return groups


def main():
    cov = ["<!-- generated by tools/mkdesign.py -->", "", "| file | modelled | partly modelled (share of the body cited) | not modelled |", "|---|---|---|---|"]
    for rel, full, part, none in coverage():
        if not (full or part or none):
            continue
        cell = lambda xs: ", ".join(f"`{x}`" for x in xs) or "-"
        cov.append(f"| `{rel}` | {cell(full)} | " + (", ".join(f"`{q}` ({round(100 * s)}%)" for q, s in part) or "-") + f" | {cell(none)} |")
    ass = ["<!-- generated by tools/mkdesign.py -->", ""]
    for ax, names in sorted(assumptions().items()):
        ass.append("* " + ("No axioms (closed under the global context)" if not ax else ", ".join(f"`{a}`" for a in ax)) + f" - {len(names)} theorems: " + ", ".join(f"`{n}`" for n in names) + ".")
    d = open("/verif/DESIGN.md").read()
    for tag, text in (("coverage", cov), ("assumptions", ass)):
        a, b = f"<!-- {tag} -->\n", f"<!-- /{tag} -->"
        i, j = d.index(a) + len(a), d.index(b)
        d = d[:i] + "\n".join(text) + "\n" + d[j:]
    open("/verif/DESIGN.md", "w").write(d)


if __name__ == "__main__":
    main()
