"""Write AXIOMS.md: the axioms of every theorem in theories/P_*.v (needs a finished build)."""
import glob, os, re, subprocess
here = os.path.dirname(os.path.abspath(__file__))
th = os.path.join(here, "..", "rocq", "theories")
groups = {}
for f in sorted(glob.glob(os.path.join(th, "P_*.v"))):
    names = re.findall(r"^Print Assumptions (\w+)\.", open(f).read(), re.M)
    out = subprocess.run(["coqc", "-Q", ".", "Verif", "-o", "/tmp/" + os.path.basename(f) + "o", os.path.basename(f)], cwd=th, stdout=subprocess.PIPE, universal_newlines=True, check=True).stdout
    blocks = re.split(r"^(?=Axioms:|Closed under)", out, flags=re.M)[1:]
    assert len(blocks) == len(names), (f, len(blocks), len(names))
    for n, b in zip(names, blocks):
        ax = sorted(set(re.findall(r"^([A-Za-z_][\w.]*)\s*(?::|$)", b, re.M)) - {"Axioms"})
        groups.setdefault(tuple(ax), []).append(n)
with open(os.path.join(here, "..", "AXIOMS.md"), "w") as o:
    o.write("# Axioms used by each theorem\n\nWritten by `tools/mkaxioms.py` from `Print Assumptions`.\n")
    for ax, l in sorted(groups.items()):
        o.write("\n## " + (", ".join("`%s`" % a for a in ax) or "none (closed under the global context)") + "\n\n")
        o.write(", ".join(sorted(l)) + "\n")
