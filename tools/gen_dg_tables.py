#!/usr/bin/env python3
"""Translate the basis function tables of postgkyl to Coq, as text.

usage: gen_dg_tables.py REPO/src/postgkyl/data OUTDIR

Reads computeInterpolationMatrices.py and computeDerivativeMatrices.py with
Python's parser (nothing is imported or run) and writes Dg_TabI.v and Dg_TabD.v.
The entries of every `functionVector` are copied as they are written; the
selection conditions (dim, modal, basis_type, order) become nested conditionals.
"""
import ast, sys, re

datadir, outdir = sys.argv[1:3]

def gen(fn, out, pre, fname, what):
    src = open(f"{datadir}/{fn}").read()
    lines = src.splitlines(True)

    def segment(n):
        if n.lineno == n.end_lineno:
            return lines[n.lineno-1][n.col_offset:n.end_col_offset]
        s = [lines[n.lineno-1][n.col_offset:]] + lines[n.lineno:n.end_lineno-1] + [lines[n.end_lineno-1][:n.end_col_offset]]
        return ''.join(s)

    func = [n for n in ast.parse(src).body if isinstance(n, ast.FunctionDef)][0]
    defs = []

    def cond(test, dims):
        """Coq boolean for a test."""
        s = ast.unparse(test)
        m = re.fullmatch(r"(dim|order) == (\d+)", s)
        if m: return f"Nat.eqb {m.group(1)} {m.group(2)}", m
        if s == "modal": return "modal", None
        m = re.fullmatch(r"modal and basis_type == '([\w-]+)'", s)
        if m: return f'(modal && String.eqb basis "{m.group(1)}")', None
        m = re.fullmatch(r"modal == False and basis_type == '([\w-]+)'", s)
        if m: return f'(negb modal && String.eqb basis "{m.group(1)}")', None
        raise Exception("condition " + s)

    def tag(test, positive):
        s = ast.unparse(test)
        m = re.fullmatch(r"(dim|order) == (\d+)", s)
        if m: return (m.group(1)[0] + m.group(2)) if positive else None
        if s == "modal": return "modal" if positive else "nodal"
        m = re.search(r"basis_type == '([\w-]+)'", s)
        if m and positive: return ("nodal_" if "False" in s else "") + {"maximal-order": "max", "serendipity": "ser"}.get(m.group(1), m.group(1))
        return None

    def body(stmts, tags, ind):
        """Coq term for a block."""
        for st in stmts:
            if isinstance(st, ast.Raise):
                assert ast.unparse(st.exc).startswith("NameError(")
                return "Err NameError"
            if isinstance(st, ast.If): return branch(st, tags, ind)
            if isinstance(st, ast.Assign) and ast.unparse(st.targets[0]) == "functionVector":
                assert ast.unparse(st.value.func) == "Matrix"
                name = pre + "_" + "_".join(t for t in tags if t)
                es = []
                for row in st.value.args[0].elts:
                    assert len(row.elts) == 1
                    es.append(re.sub(r"\s+", " ", segment(row.elts[0])))
                defs.append(f"(** {fn} {st.lineno}-{st.end_lineno}. *)\nDefinition {name} : list pexp :=\n  [ " +
                            ";\n    ".join(es) + " ]%pexp.\n")
                return "Ok " + name
        raise Exception("block")

    def branch(n, tags, ind):
        c, _ = cond(n.test, None)
        a = body(n.body, tags + [tag(n.test, True)], ind + "  ")
        b = body(n.orelse, tags + [tag(n.test, False)], ind) if not (len(n.orelse) == 1 and isinstance(n.orelse[0], ast.If)) else branch(n.orelse[0], tags, ind)
        sep = "\n" + ind + "  " if a.startswith("if") else " "
        return f"if {c} then{sep}{a}\n{ind}else {b}"

    top = [st for st in func.body if isinstance(st, ast.If) and "dim" in ast.unparse(st.test)]
    assert len(top) == 1
    term = branch(top[0], [], "  ")
    with open(f"{outdir}/{out}", "w") as f:
        f.write(f"""(** * {what}: the basis functions of {fn}.
    Generated by tools/gen_dg_tables.py from the text of the file; do not edit. *)
From Coq Require Import String List Arith ZArith Bool.
From Verif Require Import Prelude Dg_Poly.
Import ListNotations.
Open Scope string_scope.
Open Scope list_scope.

Local Notation x := (Va 0) (only parsing).
Local Notation y := (Va 1) (only parsing).
Local Notation z := (Va 2) (only parsing).
Local Notation w := (Va 3) (only parsing).
Local Notation v := (Va 4) (only parsing).
Local Notation u := (Va 5) (only parsing).

""")
        for d in defs: f.write(d + "\n")
        f.write(f"""(** {fn} {top[0].lineno}-{top[0].end_lineno}: the functions chosen by the arguments. *)
Definition {fname} (dim order : nat) (modal : bool) (basis : string) : res (list pexp) :=
  {term}.
""")

gen("computeInterpolationMatrices.py", "Dg_TabI.v", "it", "interp_functions", "Interpolation tables")
gen("computeDerivativeMatrices.py", "Dg_TabD.v", "dt", "deriv_functions", "Derivative tables")
