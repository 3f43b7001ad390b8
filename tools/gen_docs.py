#!/usr/bin/env python3
"""Copy the tables of the project's documentation into Coq (rocq/theories/DocTables.v). Reads /repo/docs as text."""
import os, re
OUT = os.path.join(os.path.dirname(os.path.abspath(__file__)), "..", "rocq", "theories", "DocTables.v")
def q(s): return '(str "%s")' % s.replace('"', '""')
o = ["(* Generated by tools/gen_docs.py from docs/Command Tables.md and docs/Responses.md: what the documentation says. No proofs. *)",
     "From Coq Require Import ZArith List.", "From Verif Require Import Py.", "Import ListNotations.", "Open Scope Z_scope.", "",
     "(* the last column of the command tables *)",
     "Inductive doc_type : Set := DocUnit (u : text) | DocString | DocHexString | DocBool | DocBitArray | DocFuelStatus | DocAirStatus | DocStatus | DocDtc | DocDtcs | DocO2 | DocO2Alt | DocMonitor | DocNothing | DocTodo.",
     "(* a row: mode (None: an adapter command), pid (None: N/A), name, description, response value *)",
     "Record doc_row := mkRow { d_mode : option Z; d_pid : option Z; d_name : text; d_desc : text; d_type : doc_type }.", ""]
def ty(t, name):
    t = t.strip()
    if t.startswith("Unit."): return "DocUnit " + q(t[5:])
    t = re.sub(r"^\[(.*)\]\((.*)\)$", r"\1|\2", t)
    f = {"string": "DocString", "hex string": "DocHexString", "boolean": "DocBool", "BitArray": "DocBitArray", "N/A": "DocNothing", "TODO": "DocTodo",
         "string|Responses.md#air-status": "DocAirStatus",
         "(string, string)|Responses.md#fuel-status": "DocFuelStatus", "special|Responses.md#status": "DocStatus",
         "special|Responses.md#oxygen-sensors-present": "DocO2Alt" if name == "O2_SENSORS_ALT" else "DocO2", "monitor|Responses.md#monitors-mode-06-responses": "DocMonitor",
         # one code for FREEZE_DTC, a list for the others (Responses.md, Diagnostic Trouble Codes)
         "special|Responses.md#diagnostic-trouble-codes-dtcs": "DocDtc" if name == "FREEZE_DTC" else "DocDtcs"}
    return f[t]
rows, mode, first, last = [], None, None, None
for i, l in enumerate(open("/repo/docs/Command Tables.md"), 1):
    m = re.match(r"## Mode (\d\d)", l)
    if m: mode = int(m.group(1), 16)
    if not l.startswith("|") or l.startswith("|PID") or l.startswith("|-") : continue
    c = [x.strip() for x in l.strip().strip("|").split("|")]
    if "unsupported" in l or "*gap*" in l: continue
    pid, name, desc, t = c
    first = first or i; last = i
    rows.append("  mkRow %s %s %s %s (%s)" % ("None" if mode is None else "(Some %d)" % mode, "None" if pid == "N/A" else "(Some %d)" % int(pid, 16), q(name), q(desc.replace('\\"', '"')), ty(t, name)))
o.append("(* docs/Command Tables.md:%d-%d *)" % (first, last))
o.append("Definition doc_rows : list doc_row := [\n%s\n].\n" % ";\n".join(rows))
# the lists in Responses.md
R = open("/repo/docs/Responses.md").read().split("\n")
def table(head):
    i = next(k for k, l in enumerate(R) if re.match(r"\|\s*" + re.escape(head) + r"\s*\|", l))
    j = i + 2
    while j < len(R) and R[j].startswith("|"): j += 1
    return i + 1, j, [[x.strip() for x in l.strip().strip("|").split("|")] for l in R[i + 2:j]]
for name, head in [("doc_tests", "Tests"), ("doc_fuel_status", "Fuel Status"), ("doc_air_status", "Air Status")]:
    a, b, t = table(head)
    o.append("(* docs/Responses.md:%d-%d *)" % (a, b))
    o.append("Definition %s : list text := [\n%s\n].\n" % (name, ";\n".join("  " + q(r[0].strip("`").strip('"')) for r in t)))
i = next(k for k, l in enumerate(R) if l.startswith("| TID")); j = i + 2
while R[j].startswith("|"): j += 1
t = [[x.strip() for x in l.strip().strip("|").split("|")] for l in R[i + 2:j]]
o.append("(* docs/Responses.md:%d-%d *)" % (i + 1, j))
o.append("Definition doc_tids : list (Z * (text * text)) := [\n%s\n]." % ";\n".join("  (%d, (%s, %s))" % (int(r[0], 16), q(r[1]), q(r[2])) for r in t))
open(OUT, "w").write("\n".join(o) + "\n")
print(len(rows))
