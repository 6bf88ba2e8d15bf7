#!/usr/bin/env python3
"""Lists the refutation theorems in section 5 of DESIGN.md, with the comments before them."""
import re, glob, os
root = os.path.dirname(os.path.dirname(os.path.abspath(__file__)))
found = []
for f in glob.glob(root + "/rocq/theories/*Props.v"):
    s = open(f).read()
    for m in re.finditer(r"Theorem ((C\d+)_\w*refuted)\b", s):
        pre = s[:m.start()].rstrip()
        c = ""
        if pre.endswith("*)"):
            c = " ".join(pre[pre.rfind("(*"):].strip("(*) ").split())
        else:
            print("no comment:", m.group(1))
        c = re.sub(r"^(C\d+,? ?(finding|at fault)?: |\.\.\. finding: |\.\.\. )", "", c).replace("|", "\\|")
        found.append((int(m.group(2)[1:]), m.group(1), c))
found.sort(key=lambda x: x[0])
p = root + "/DESIGN.md"
d = open(p).read()
mark = "<!-- findings -->\n"
d = d[:d.index(mark) + len(mark)]
d += "Executions of the modelled code that violate a property, each proved to be possible:\n\n"
d += "".join("* `%s`: %s\n" % (n, c) for _, n, c in found)
open(p, "w").write(d)
print(len(found), "findings")
