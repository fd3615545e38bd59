#!/usr/bin/env python3
"""Collects what Print Assumptions says of every property theorem (the files of
rocq/theories/Props have to be built) and writes section 5 of DESIGN.md."""
import pathlib, re, subprocess, tempfile
root = pathlib.Path(__file__).resolve().parent.parent
rocq = root / "rocq"
groups = {}
for f in sorted((rocq / "theories" / "Props").glob("*.v")):
    names = re.findall(r"^Print Assumptions\s+(\w+)\.", f.read_text(), re.M)
    with tempfile.TemporaryDirectory() as tmp:
        lines = [f"From Verif.Props Require Import {f.stem}."]
        for n in names:
            lines += [f"Print Assumptions {n}.", 'Check I.']
        t = pathlib.Path(tmp) / "pa.v"
        t.write_text("\n".join(lines) + "\n")
        out = subprocess.run(["coqc", "-Q", "theories", "Verif", str(t)], cwd=rocq, capture_output=True, text=True)
    assert out.returncode == 0, out.stderr
    parts = re.split(r"^I\s*\n\s*: True\s*$", out.stdout, flags=re.M)
    for n, p in zip(names, parts):
        ax = tuple(sorted(m for m in re.findall(r"^([\w.]+)\s*(?::|$)", p, re.M) if m not in ("Axioms", "Closed")))
        groups.setdefault(ax, []).append(n)
total = sum(len(v) for v in groups.values())
text = [f"Output of `Print Assumptions` for the {total} property theorems, grouped "
        "(regenerate with `tools/gen_assumptions.py` after a build).", ""]
for ax, names in sorted(groups.items(), key=lambda kv: len(kv[0])):
    text.append("* " + ("**Closed under the global context** (no axioms)" if not ax else
                        ", ".join(f"`{a}`" for a in ax)) + f" - {len(names)} theorems:")
    text.append("  " + ", ".join(names) + ".")
design = (root / "DESIGN.md").read_text()
head, _, rest = design.partition("## 5. Print Assumptions per theorem\n")
tail = rest[rest.index("\n## "):] if "\n## " in rest else ""
(root / "DESIGN.md").write_text(head + "## 5. Print Assumptions per theorem\n\n" + "\n".join(text) + "\n" + tail)
for ax, names in groups.items():
    print(len(names), ax)
