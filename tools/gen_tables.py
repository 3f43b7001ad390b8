#!/usr/bin/env python3
"""Copy the tables of python-OBD into Coq. Reads /repo as text (ast), runs nothing of it.
Writes Codes.v, UasTable.v and CommandTable.v into rocq/theories."""
import ast, os, sys
from fractions import Fraction
R = "/repo/obd/"
OUT = os.path.join(os.path.dirname(__file__), "..", "rocq", "theories")

def q(s):
    return '(str "%s")' % s.replace('"', '""')

def assigns(path):
    src = open(path).read()
    t = ast.parse(src)
    return src, {n.targets[0].id: n for n in t.body if isinstance(n, ast.Assign) and isinstance(n.targets[0], ast.Name)}

# ---------------------------------------------------------------- codes
src, A = assigns(R + "codes.py")
o = ["(* Generated by tools/gen_tables.py from obd/codes.py. No proofs. *)",
     "From Coq Require Import ZArith List.", "From Verif Require Import Py.",
     "Import ListNotations.", "Open Scope Z_scope.", ""]
def loc(n): return "codes.py:%d-%d" % (n.lineno, n.end_lineno)
n = A["DTC"]
o.append("(* %s  DTC *)" % loc(n))
o.append("Definition DTC : list (text * text) := [")
o.append(";\n".join("  (%s, %s)" % (q(k.value), q(v.value)) for k, v in zip(n.value.keys, n.value.values)))
o.append("].\n")
for name in ["IGNITION_TYPE", "FUEL_STATUS", "AIR_STATUS", "OBD_COMPLIANCE", "FUEL_TYPES"]:
    n = A[name]
    o.append("(* %s *)" % loc(n))
    o.append("Definition %s : list text := [\n%s\n].\n" % (name, ";\n".join("  " + q(e.value) for e in n.value.elts)))
for name in ["BASE_TESTS", "SPARK_TESTS", "COMPRESSION_TESTS"]:
    n = A[name]
    o.append("(* %s; None marks a reserved bit *)" % loc(n))
    o.append("Definition %s : list (option text) := [\n%s\n].\n" % (name, ";\n".join("  " + ("None" if e.value is None else "Some " + q(e.value)) for e in n.value.elts)))
n = A["TEST_IDS"]
o.append("(* %s *)" % loc(n))
o.append("Definition TEST_IDS : list (Z * (text * text)) := [\n%s\n]." % ";\n".join(
    "  (%d, (%s, %s))" % (k.value, q(v.elts[0].value), q(v.elts[1].value)) for k, v in zip(n.value.keys, n.value.values)))
open(OUT + "/Codes.v", "w").write("\n".join(o) + "\n")

# ---------------------------------------------------------------- UAS
src, A = assigns(R + "UnitsAndScaling.py")
def unit(e):
    if isinstance(e, ast.Attribute): return e.attr
    if isinstance(e, ast.BinOp):
        op = {ast.Div: " / ", ast.Pow: " ** "}[type(e.op)]
        return unit(e.left) + op + unit(e.right)
    return str(e.value)
def lit(e):
    if isinstance(e, ast.UnaryOp):
        assert isinstance(e.op, ast.USub)
        s, e = "-", e.operand
    else: s = ""
    txt = ast.get_source_segment(src, e)
    f = Fraction(txt)
    if "." in txt:
        # numerator and denominator of the decimal as written
        d = len(txt.split(".")[1])
        return "(LDec (%s%d) %d)" % (s, int(f * 10**d), 10**d)
    return "(LInt (%s%d))" % (s, int(txt))
o = ["(* Generated by tools/gen_tables.py from obd/UnitsAndScaling.py. No proofs. *)",
     "From Coq Require Import ZArith List.", "From Verif Require Import Py Num.",
     "Import ListNotations.", "Open Scope Z_scope.", "",
     "(* a number as written in the source: an int, or a decimal num/den that becomes the nearest float *)",
     "Inductive lit : Set := LInt (z : Z) | LDec (num den : Z).",
     "Definition lit_num (l : lit) : num :=",
     "  match l with LInt z => PyInt z | LDec n d => PyFloat (float_of_ratio (n <? 0) (Z.abs n) d) end.", "",
     "(* UnitsAndScaling.py:46-56  UAS(signed, scale, unit, offset); :117 the lambda of id 0x2E *)",
     "Inductive uas : Set :=",
     "| UAS (signed : bool) (scale : lit) (unit : text) (offset : lit)",
     "| UAS_any.", ""]
n = A["UAS_IDS"]
rows = []
for k, v in zip(n.value.keys, n.value.values):
    if isinstance(v, ast.Lambda):
        assert ast.unparse(v) == "lambda _bytes: any([bool(x) for x in _bytes])"
        rows.append("  (%d, UAS_any)" % k.value)
    else:
        a = v.args
        off = "(LDec 0 10)"
        for kw in v.keywords:
            assert kw.arg == "offset"; off = lit(kw.value)
        rows.append("  (%d, UAS %s %s %s %s)" % (k.value, str(a[0].value).lower(), lit(a[1]), q(unit(a[2])), off))
o.append("(* UnitsAndScaling.py:%d-%d  UAS_IDS *)" % (n.lineno, n.end_lineno))
o.append("Definition UAS_IDS : list (Z * uas) := [\n%s\n]." % ";\n".join(rows))
open(OUT + "/UasTable.v", "w").write("\n".join(o) + "\n")

# ---------------------------------------------------------------- commands
src, A = assigns(R + "commands.py")
def dec(e):
    if isinstance(e, ast.Name): return "D_" + e.id
    return "(D_%s %d)" % (e.func.id, e.args[0].value)
def cmd(e):
    a = e.args
    assert e.func.id == "OBDCommand" and len(a) == 7 and not e.keywords
    return "mkCommand %s %s %s %d %s ECU_%s %s ECU_HEADER_ENGINE" % (
        q(a[0].value), q(a[1].value), q(a[2].value.decode()), a[3].value, dec(a[4]), a[5].attr, str(a[6].value).lower())
def listexp(e):
    """list expression -> list of Coq list strings to be appended"""
    if isinstance(e, ast.BinOp) and isinstance(e.op, ast.Add): return listexp(e.left) + listexp(e.right)
    if isinstance(e, ast.BinOp) and isinstance(e.op, ast.Mult):
        assert e.left.elts[0].value is None
        return ["repeat None %d" % e.right.value]
    return ["[\n%s\n]" % ";\n".join("  Some (%s)" % cmd(x) for x in e.elts)]
o = ["(* Generated by tools/gen_tables.py from obd/commands.py. No proofs. *)",
     "From Coq Require Import ZArith List.", "From Verif Require Import Py Protocol Decoders Command.",
     "Import ListNotations.", "Open Scope Z_scope.", ""]
for name in ["mode1", "mode3", "mode4", "mode6", "mode7", "mode9", "misc"]:
    n = A["__%s__" % name]
    o.append("(* commands.py:%d-%d  __%s__; None marks a reserved PID *)" % (n.lineno, n.end_lineno, name))
    o.append("Definition %s : list (option command) :=\n%s.\n" % (name, " ++\n".join(listexp(n.value))))
open(OUT + "/CommandTable.v", "w").write("\n".join(o) + "\n")
