"""Generates rocq/theories/ConformTable.v: the numeric expectations written in the project's own unit
tests (tests/test_uas.py and the quantities of tests/test_decoders.py), as data."""
import re, os
HERE = os.path.dirname(os.path.abspath(__file__))
OUT = os.path.join(HERE, "..", "rocq", "theories", "ConformTable.v")
T = "/repo/tests/"

def lit(s):
    s = s.strip()
    if "." in s:
        neg = s.startswith("-"); t = s.lstrip("-")
        a, b = t.split(".")
        n = int(a + b)
        return "(LDec (%d) %d)" % (-n if neg else n, 10 ** len(b))
    return "(LInt (%d))" % int(s)

def unit(u):
    u = re.sub(r"Unit\.", "", u).strip()
    return {"degrees": "degree"}.get(u, u)

def val(s):
    s = s.split("#")[0].strip()
    m = re.match(r"Unit\.Quantity\((.*), (Unit\.\w+)\)$", s)
    if m:
        return m.group(1), unit(m.group(2))
    m = re.match(r"(-?[\d.]+) \* (Unit\..*)$", s)
    return (m.group(1), unit(m.group(2))) if m else None

uas, bools, skipped = [], [], []
for n, line in enumerate(open(T + "test_uas.py"), 1):
    line = line.strip()
    if not line.startswith("assert"):
        continue
    m = re.match(r'assert float_equals\(UAS_IDS\[(0x\w\w)\]\(b\("(\w*)"\)\), (.*)\)\s*(#.*)?$', line)
    exact = False
    if not m:
        m = re.match(r'assert UAS_IDS\[(0x\w\w)\]\(b\("(\w*)"\)\) (?:==|is) (.*)$', line); exact = True
    if not m:
        skipped.append((n, line)); continue
    i, h, rhs = int(m.group(1), 16), m.group(2), m.group(3)
    if rhs.strip() in ("True", "False"):
        bools.append((n, i, h, rhs.strip().lower())); continue
    v = val(rhs)
    if v is None:
        skipped.append((n, line)); continue
    uas.append((n, i, h, exact, lit(v[0]), v[1]))

dec = []
src = open(T + "test_decoders.py").read()
src = re.sub(r'm\(\s*\n\s*"', 'm("', src)
src = re.sub(r'\(\s*\n\s*m\(', '(m(', src)
lines = src.split("\n")
for line in lines:
    line = line.strip()
    m = re.match(r'assert float_equals\(d\.(\w+)\(m\("(\w+)" \+ "(\w+)"\)\), (.*)\)\s*(#.*)?$', line)
    exact = False
    if not m:
        m = re.match(r'assert d\.(\w+)\(m\("(\w+)" \+ "(\w+)"\)\) == (.*)$', line); exact = True
    if not m:
        continue
    v = val(m.group(4))
    if v is None:
        continue
    # UnitsAndScaling.py:41 makes gps another name of grams_per_second; max_maf uses the short one
    u = "gps" if v[1] == "grams_per_second" else v[1]
    dec.append((m.group(1), m.group(2) + m.group(3), exact, lit(v[0]), u))

print(len(uas), "uas", len(bools), "bools", len(dec), "dec")
for s in skipped:
    print("skipped", s)
with open(OUT, "w") as f:
    w = f.write
    w("(* Generated by tools/gen_conformance.py from tests/test_uas.py and tests/test_decoders.py. No proofs. *)\n")
    w("From Coq Require Import ZArith List.\nFrom Verif Require Import Py Num UasTable Decoders.\nImport ListNotations.\nOpen Scope Z_scope.\n\n")
    w("(* line of tests/test_uas.py, UAS id, bytes in hex, compared with == (true) or within 0.025 (false), magnitude, unit *)\n")
    w("Definition uas_tests : list (Z * Z * text * bool * lit * text) := [\n")
    w(";\n".join('  (%d, %d, str "%s", %s, %s, str "%s")' % (n, i, h, str(e).lower(), l, u) for n, i, h, e, l, u in uas))
    w("].\n\n(* the same for the boolean id 0x2E *)\nDefinition uas_bool_tests : list (Z * Z * text * bool) := [\n")
    w(";\n".join('  (%d, %d, str "%s", %s)' % b for b in bools))
    w("].\n\n(* tests/test_decoders.py: decoder, message data in hex, exact or within 0.025, magnitude, unit *)\n")
    w("Definition decoder_tests : list (decoder * text * bool * lit * text) := [\n")
    w(";\n".join('  (D_%s, str "%s", %s, %s, str "%s")' % (d, h, str(e).lower(), l, u) for d, h, e, l, u in dec))
    w("].\n")
