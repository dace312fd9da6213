#!/usr/bin/env python3
"""Translate the expansion kernels of modalDG to Coq, as text.

usage: gen_kernels.py REPO/src/postgkyl/modalDG/kernels OUTDIR

Reads expand1d.py ... expand6d.py with Python's parser (nothing is imported or
run) and writes Kern_Tab.v.  Every returned expression is copied operator by
operator, with the grouping Python gives it; a unary plus is dropped.
"""
import ast, sys, re

indir, outdir = sys.argv[1:3]

# binding strength of the printed form
LEV = {ast.BitXor: (1, "Xo"), ast.Add: (2, "+"), ast.Sub: (2, "-"), ast.Mult: (3, "*")}

def show(n, args, src, lev):
    if isinstance(n, ast.BinOp) and isinstance(n.op, ast.Pow):
        assert isinstance(n.right.value, int)
        return f"{show(n.left, args, src, 9)}**{n.right.value}"
    if isinstance(n, ast.BinOp) and isinstance(n.op, ast.BitXor):
        return f"(Xo ({show(n.left, args, src, 0)}) ({show(n.right, args, src, 0)}))"
    if isinstance(n, ast.BinOp):
        l, op = LEV[type(n.op)]
        s = f"{show(n.left, args, src, l)} {op} {show(n.right, args, src, l + 1)}"
        return s if lev <= l else "(" + s + ")"
    if isinstance(n, ast.UnaryOp) and isinstance(n.op, ast.UAdd): return show(n.operand, args, src, lev)
    if isinstance(n, ast.UnaryOp) and isinstance(n.op, ast.USub): return f"(Ng ({show(n.operand, args, src, 0)}))"
    if isinstance(n, ast.Constant): return ast.get_source_segment(src, n)
    if isinstance(n, ast.Name): return f"Xv {args.index(n.id)}"if lev < 9 else f"(Xv {args.index(n.id)})"
    if isinstance(n, ast.Subscript):
        assert n.value.id == "f" and n.slice.elts[0].value is Ellipsis
        return f"Co {n.slice.elts[1].value}"
    raise Exception(ast.dump(n))

def wrap(s, width=110):
    out, line = [], ""
    for w in s.split(" "):
        if len(line) + len(w) + 1 > width: out.append(line); line = w
        else: line = (line + " " + w) if line else w
    return "\n   ".join(out + [line])

defs, rows = [], []
for d in range(1, 7):
    fn = f"expand{d}d.py"
    src = open(f"{indir}/{fn}").read()
    where = {}
    for n in ast.parse(src).body:
        if isinstance(n, ast.FunctionDef):
            a = [x.arg for x in n.args.args]
            assert a[0] == "f" and len(a) == d + 1 and len(n.body) == 1 and isinstance(n.body[0], ast.Return)
            v = n.body[0].value
            name = "kt" + n.name[len("_expand"):]
            where[n.name] = name
            if v is None:
                defs.append(f"(** {fn} {n.lineno}-{n.end_lineno}: a bare [return]. *)\nDefinition {name} : option kexp := None.\n")
            else:
                defs.append(f"(** {fn} {n.lineno}-{n.end_lineno}. *)\nDefinition {name} : option kexp := Some (\n   " +
                            wrap(show(v, a[1:], src, 0)) + ")%kexp.\n")
        elif isinstance(n, ast.Assign):
            assert ast.unparse(n.targets[0]) == f"expand_{d}d"
            rows.append(f"  | {d} => Some [" + "; ".join(where[e.id] for e in n.value.elts) + "]")
with open(f"{outdir}/Kern_Tab.v", "w") as f:
    f.write("""(** * The expansion kernels of modalDG/kernels.
    Generated by tools/gen_kernels.py from the text of the files; do not edit. *)
From Coq Require Import List ZArith.
From Verif Require Import Kern_Exp.
Import ListNotations.
Open Scope list_scope.

""")
    for d in defs: f.write(d + "\n")
    f.write("""(** The lists expand_1d ... expand_6d at the ends of the files. *)
Definition expand_lists (d : nat) : option (list (option kexp)) :=
  match d with
""" + "\n".join(rows) + "\n  | _ => None\n  end.\n")
