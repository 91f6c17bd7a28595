#!/usr/bin/env python3
"""Transcribes the tables of ell_init_2D / ell_init_3D of /repo/src/ell.cpp
into rocq/theories/InitTables.v.  Purely textual; fails on anything unexpected.

A right-hand side  (nn [+|- (nx * ny)] [+|- nx] [+|- 1]) * nFields + d2
becomes  Some (a, b, c)  (coefficients of 1, nx and nx*ny);  0 becomes None."""
import re, os
src = open("/repo/src/ell.cpp").read().split("\n")
def find(s, start=0):
    for i in range(start, len(src)):
        if s in src[i]: return i
    raise SystemExit("missing " + s)
b2 = find("void ell_init_2D"); b3 = find("void ell_init_3D")

def entry(rhs, base):
    rhs = rhs.strip()
    if rhs == "0": return None
    m = re.fullmatch(r"\((%s)((?: [+-] (?:\(nx \* ny\)|nx|1))*)\) \* nFields \+ d2" % base, rhs)
    assert m, rhs
    a = b = c = 0
    for sg, t in re.findall(r"([+-]) (\(nx \* ny\)|nx|1)", m.group(2)):
        v = 1 if sg == "+" else -1
        if t == "1": a += v
        elif t == "nx": b += v
        else: c += v
    return (a, b, c)

def block(lines, base, nslots, lno):
    ents = {}
    for l in lines:
        m = re.match(r"\s*mcols\[(\d+) \* nFields \+ nnz \* d1 \+ d2\] = (.*);", l)
        if m:
            s = int(m.group(1)); assert s not in ents and s == len(ents)
            ents[s] = entry(m.group(2), base)
    assert len(ents) == nslots, (lno, len(ents))
    return [ents[s] for s in range(nslots)]

def coq_entry(e):
    return "None" if e is None else "Some (%s)" % ", ".join("%d" % x if x >= 0 else "-%d" % -x for x in e)

# ---- 3D ----
out3 = []
i = b3 + 1
starts = [k for k in range(b3, len(src)) if re.match(r"\s*nn = nod_index\((.*)\);", src[k])]
prev = b3
for q, k in enumerate(starts):
    end = starts[q+1] if q + 1 < len(starts) else len(src)
    args = [x.strip() for x in re.match(r"\s*nn = nod_index\((.*)\);", src[k]).group(1).split(",")]
    cls = []
    loops = []
    j = k - 1
    while "for (int" in src[j]:
        m = re.match(r"\s*for \(int ([ijk]) = 1; \1 < n([xyz]) - 1; \1\+\+\) \{", src[j])
        assert m and {"i": "x", "j": "y", "k": "z"}[m.group(1)] == m.group(2), src[j]
        loops.append(m.group(1)); j -= 1
    for ax, (v, n) in enumerate(zip("ijk", ("nx", "ny", "nz"))):
        if args[ax] == "0": cls.append("Lo")
        elif args[ax] == n + " - 1": cls.append("Hi")
        else:
            assert args[ax] == v and v in loops, args
            cls.append("Mid")
    assert len(loops) == cls.count("Mid")
    assert src[k+1].strip() == "mcols = &(m->cols[nn * nFields * nnz]);"
    assert "for (int d1 = 0; d1 < nFields; d1++)" in src[k+2] and "for (int d2 = 0; d2 < nFields; d2++)" in src[k+3]
    out3.append((k+1, cls, block(src[k:end], "nn", 27, k+1)))
assert len(out3) == 27
# ---- 2D ----
out2 = []
conds = [k for k in range(b2, b3) if re.match(r"\s*(\} )?(else )?(if \(.*\)|else) \{", src[k])]
for q, k in enumerate(conds):
    end = conds[q+1] if q + 1 < len(conds) else b3
    m = re.search(r"if \((.*)\) \{", src[k])
    out2.append((k+1, m.group(1) if m else "else", block(src[k:end], "i", 9, k+1)))
assert len(out2) == 9

names2 = ["t2_corner_00","t2_corner_x0","t2_corner_xy","t2_corner_0y","t2_bottom","t2_top","t2_left","t2_right","t2_inner"]
expect2 = ["i == 0","i == nx - 1","i == nx * ny - 1","i == (ny - 1) * nx","i < nx","i > (ny - 1) * nx","(i % nx) == 0","(i + 1) % nx == 0","else"]
assert [c for _, c, _ in out2] == expect2, out2
w = []
w.append('''(** Column tables of ell_init_2D / ell_init_3D.
    Generated by tools/gen_init.py from /repo/src/ell.cpp:707-1876; do not edit.

    [Some (a, b, c)] stands for the right-hand side
      (n + c * (nx * ny) + b * nx + a) * nFields + d2
    and [None] for the right-hand side 0, where n is the node of the block. *)
From Verif Require Import Base.

Definition entry := option (Z * Z * Z).

(** position of a block along one axis: index 0, index n-1, or the loop
    [for (i = 1; i < n - 1; i++)] *)
Inductive axcls := Lo | Mid | Hi.
''')
def fmt(es, per):
    rows = [";  ".join(coq_entry(e) for e in es[x:x+per]) for x in range(0, len(es), per)]
    return "[ " + ";\n    ".join(rows) + " ]"
for (ln, c, es), nm in zip(out2, names2):
    w.append("(** src/ell.cpp:%d  branch [%s] *)\nDefinition %s : list entry :=\n  %s.\n" % (ln, c, nm, fmt(es, 3)))
w.append("(** src/ell.cpp:878-1875, the 27 blocks in program order *)\nDefinition t3_blocks : list ((axcls * axcls * axcls) * list entry) := [")
for q, (ln, cls, es) in enumerate(out3):
    w.append("  (* line %d *)\n  ((%s),\n    %s)%s" % (ln, ", ".join(cls), fmt(es, 9), ";" if q < 26 else " ]."))
open(os.path.join(os.path.dirname(os.path.abspath(__file__)), "..", "rocq", "theories", "InitTables.v"), "w").write("\n".join(w) + "\n")
